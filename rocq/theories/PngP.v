(** PngP.v -- proofs about ReversePredictor's PNG predictors. *)
From Verif Require Import Base BaseP Lexer Bits Filters SpecLex SpecLexP SpecFilters FiltersP.
From Coq Require Import Strings.String.
Local Open Scope Z_scope.

Lemma zget_app_r : forall A (a b : list A) i, 0 <= i -> zget (a ++ b) (zlen a + i) = zget b i.
Proof.
  intros A a b i H. pose proof (zlen_nonneg _ a). rewrite !zget_nth by lia.
  rewrite nth_error_app2 by (unfold zlen in *; lia). f_equal. unfold zlen. lia.
Qed.

Lemma zget_app_l : forall A (a b : list A) i, 0 <= i < zlen a -> zget (a ++ b) i = zget a i.
Proof.
  intros A a b i H. rewrite !zget_nth by lia. apply nth_error_app1. unfold zlen in *. lia.
Qed.

Lemma zget_row : forall l i, 0 <= i < zlen l -> option_map bv (zget l i) = Some (row_at l i).
Proof.
  intros l i H. rewrite zget_nth by lia. unfold row_at. destruct (i <? 0) eqn:E; [apply Z.ltb_lt in E; lia|].
  rewrite (nth_error_nth' l x00) by (unfold zlen in H; lia). reflexivity.
Qed.

Lemma row_at_neg : forall l i, i < 0 -> row_at l i = 0.
Proof. intros l i H. unfold row_at. destruct (i <? 0) eqn:E; auto. apply Z.ltb_ge in E; lia. Qed.

Lemma row_at_nil : forall i, row_at [] i = 0.
Proof. intros i. unfold row_at. destruct (i <? 0); auto. destruct (Z.to_nat i); reflexivity. Qed.

Lemma row_at_app_l : forall a b i, i < zlen a -> row_at (a ++ b) i = row_at a i.
Proof.
  intros a b i H. unfold row_at. destruct (i <? 0) eqn:E; auto. apply Z.ltb_ge in E.
  rewrite app_nth1; auto. unfold zlen in H. lia.
Qed.

(** the decoded rows so far, and the row above *)
Definition above (dw k : Z) (prev up : bytes) : Prop :=
  zlen prev = k * dw /\ ((k = 0 /\ up = []) \/ (1 <= k /\ zlen up = dw /\ exists p, prev = p ++ up)).

Lemma left_at : forall dw k prev up r1 y r2, above dw k prev up -> 0 < dw ->
  png_left (prev ++ r1) (k * dw) (zlen r1) = Some (row_at (r1 ++ y :: r2) (zlen r1 - 1)).
Proof.
  intros dw k prev up r1 y r2 [L _] Hw. unfold png_left. destruct (0 <? zlen r1) eqn:E.
  - apply Z.ltb_lt in E. replace (k * dw + zlen r1 - 1) with (zlen prev + (zlen r1 - 1)) by lia.
    rewrite zget_app_r by lia. rewrite zget_row by lia. rewrite row_at_app_l by lia. reflexivity.
  - apply Z.ltb_ge in E. rewrite row_at_neg by lia. reflexivity.
Qed.

Lemma up_at : forall dw k prev up r1 d, above dw k prev up -> 0 < dw -> 0 <= d <= zlen r1 -> zlen r1 < dw ->
  (if 0 <=? k * dw + d - dw then option_map bv (zget (prev ++ r1) (k * dw + d - dw)) else Some 0) = Some (row_at up d).
Proof.
  intros dw k prev up r1 d [L [[-> ->]|(Hk & Hu & p & ->)]] Hw Hd Hr.
  - destruct (0 <=? 0 * dw + d - dw) eqn:E; [apply Z.leb_le in E; lia|]. rewrite row_at_nil. reflexivity.
  - rewrite zlen_app in L. assert (Lp : zlen p = (k - 1) * dw) by lia.
    pose proof (zlen_nonneg _ p).
    destruct (0 <=? k * dw + d - dw) eqn:E; [|apply Z.leb_gt in E; lia].
    replace (k * dw + d - dw) with (zlen p + d) by lia. rewrite <- app_assoc, zget_app_r by lia.
    rewrite zget_app_l by lia. apply zget_row. lia.
Qed.

Lemma up_left_at : forall dw k prev up r1, above dw k prev up -> 0 < dw -> zlen r1 < dw ->
  png_up_left (prev ++ r1) (k * dw) (zlen r1) dw = Some (row_at up (zlen r1 - 1)).
Proof.
  intros dw k prev up r1 A Hw Hr. unfold png_up_left. pose proof (zlen_nonneg _ r1).
  destruct (0 <? zlen r1) eqn:E.
  - apply Z.ltb_lt in E. rewrite andb_true_r. 
    replace (k * dw + zlen r1 - dw - 1) with (k * dw + (zlen r1 - 1) - dw) by lia.
    apply (up_at dw k prev up r1); auto; lia.
  - apply Z.ltb_ge in E. rewrite andb_false_r. rewrite row_at_neg by lia. reflexivity.
Qed.

Lemma paeth_nearest : forall a b c, paeth a b c = nearest (a + b - c) a [b; c].
Proof.
  intros a b c. unfold paeth, nearest. set (p := a + b - c).
  destruct (Z.abs (p - b) <? Z.abs (p - a)) eqn:E1; [apply Z.ltb_lt in E1|apply Z.ltb_ge in E1].
  - destruct (Z.abs (p - a) <=? Z.abs (p - b)) eqn:E2; [apply Z.leb_le in E2; lia|]. cbn [andb].
    destruct (Z.abs (p - c) <? Z.abs (p - b)) eqn:E3; [apply Z.ltb_lt in E3|apply Z.ltb_ge in E3].
    + destruct (Z.abs (p - b) <=? Z.abs (p - c)) eqn:E4; [apply Z.leb_le in E4; lia|reflexivity].
    + destruct (Z.abs (p - b) <=? Z.abs (p - c)) eqn:E4; [reflexivity|apply Z.leb_gt in E4; lia].
  - destruct (Z.abs (p - a) <=? Z.abs (p - b)) eqn:E2; [|apply Z.leb_gt in E2; lia]. cbn [andb].
    destruct (Z.abs (p - c) <? Z.abs (p - a)) eqn:E3; [apply Z.ltb_lt in E3|apply Z.ltb_ge in E3].
    + destruct (Z.abs (p - a) <=? Z.abs (p - c)) eqn:E4; [apply Z.leb_le in E4; lia|].
      destruct (Z.abs (p - b) <=? Z.abs (p - c)) eqn:E5; [apply Z.leb_le in E5; lia|reflexivity].
    + destruct (Z.abs (p - a) <=? Z.abs (p - c)) eqn:E4; [reflexivity|apply Z.leb_gt in E4; lia].
Qed.

Lemma undo : forall x y q, bv x = (bv y - q) mod 256 -> zb ((bv x + q) mod 256) = y.
Proof.
  intros x y q H. rewrite H. rewrite Zplus_mod_idemp_l. replace (bv y - q + q) with (bv y) by lia.
  rewrite Z.mod_small by apply bv_range. apply zb_bv.
Qed.

Lemma png_byte_undo : forall bpp t dw k prev up r1 y r2 x, above dw k prev up -> 0 < dw -> zlen r1 < dw ->
  0 <= t <= 4 -> (bpp = 1 \/ t = 0 \/ t = 2) ->
  bv x = (bv y - png_predict t (row_at (r1 ++ y :: r2) (zlen r1 - bpp)) (row_at up (zlen r1)) (row_at up (zlen r1 - bpp))) mod 256 ->
  png_byte t x (prev ++ r1) (k * dw) (zlen r1) dw = Some y.
Proof.
  intros bpp t dw k prev up r1 y r2 x A Hw Hr Ht Hb Hx. unfold png_byte, png_predict in *.
  pose proof (zlen_nonneg _ r1).
  assert (U : png_up (prev ++ r1) (k * dw) (zlen r1) dw = Some (row_at up (zlen r1))).
  { unfold png_up. apply (up_at dw k prev up r1); auto; lia. }
  pose proof (left_at dw k prev up r1 y r2 A Hw) as L. pose proof (up_left_at dw k prev up r1 A Hw Hr) as UL.
  rewrite U, L, UL.
  destruct (t =? 0) eqn:E0; [apply Z.eqb_eq in E0; subst t; cbn in Hx|].
  { rewrite Z.sub_0_r, Z.mod_small in Hx by apply bv_range. apply bv_inj in Hx. congruence. }
  apply Z.eqb_neq in E0.
  destruct (t =? 1) eqn:E1; [apply Z.eqb_eq in E1|].
  { destruct Hb as [->|[Hb|Hb]]; try lia. f_equal. apply undo. exact Hx. }
  destruct (t =? 2) eqn:E2. { f_equal. apply undo. exact Hx. }
  apply Z.eqb_neq in E2. destruct Hb as [->|[Hb|Hb]]; try lia.
  destruct (t =? 3) eqn:E3. { f_equal. apply undo. exact Hx. }
  apply Z.eqb_neq in E3. apply Z.eqb_neq in E1. assert (t = 4) by lia. subst t. change (4 =? 4) with true in *. cbv iota in *.
  f_equal. rewrite paeth_nearest. apply undo. exact Hx.
Qed.

Lemma png_row_undo : forall bpp t dw k prev up row, above dw k prev up -> 0 < dw -> zlen row = dw ->
  0 <= t <= 4 -> (bpp = 1 \/ t = 0 \/ t = 2) ->
  forall r2 r1 fs, row = r1 ++ r2 -> List.length fs = List.length r2 ->
  (forall i, 0 <= i < zlen r2 -> row_at fs i = (row_at row (zlen r1 + i) -
     png_predict t (row_at row (zlen r1 + i - bpp)) (row_at up (zlen r1 + i)) (row_at up (zlen r1 + i - bpp))) mod 256) ->
  png_row t fs (k * dw) (zlen r1) dw (prev ++ r1) = Some (prev ++ row).
Proof.
  intros bpp t dw k prev up row A Hw Hl Ht Hb. induction r2 as [|y r2 IH]; intros r1 fs E L H.
  - destruct fs; [|discriminate]. rewrite app_nil_r in E. subst. reflexivity.
  - destruct fs as [|x fs]; [discriminate|]. cbn [png_row]. injection L as L.
    pose proof (zlen_nonneg _ r2).
    assert (Lr : zlen r1 + (1 + zlen r2) = dw).
    { rewrite <- Hl, E, zlen_app, zlen_cons. reflexivity. }
    rewrite (png_byte_undo bpp t dw k prev up r1 y r2 x); auto; try lia.
    + rewrite <- app_assoc. replace (zlen r1 + 1) with (zlen (r1 ++ [y])) by (rewrite zlen_app; reflexivity).
      apply IH; auto.
      * rewrite <- app_assoc. exact E.
      * intros i Hi. specialize (H (1 + i)). rewrite zlen_cons in H. specialize (H ltac:(lia)).
        rewrite zlen_app, zlen_cons, zlen_nil. replace (zlen r1 + (1 + 0) + i) with (zlen r1 + (1 + i)) by lia.
        rewrite <- H. unfold row_at. destruct (i <? 0) eqn:E1; [apply Z.ltb_lt in E1; lia|].
        destruct (1 + i <? 0) eqn:E2; [apply Z.ltb_lt in E2; lia|].
        replace (Z.to_nat (1 + i)) with (S (Z.to_nat i)) by lia. reflexivity.
    + specialize (H 0). rewrite zlen_cons, Z.add_0_r in H. specialize (H ltac:(lia)).
      change (row_at (x :: fs) 0) with (bv x) in H.
      replace (row_at row (zlen r1)) with (bv y) in H.
      2:{ rewrite E. unfold row_at. pose proof (zlen_nonneg _ r1). destruct (zlen r1 <? 0) eqn:E1; [apply Z.ltb_lt in E1; lia|].
          unfold zlen. rewrite Nat2Z.id, app_nth2, Nat.sub_diag by lia. reflexivity. }
      rewrite E in H. exact H.
Qed.

Lemma png_loop_undo : forall predictor bpp dw up types rows data, png_encoded bpp dw up types rows data -> 0 < dw ->
  (forall t, In t types -> (predictor = 15 \/ t = predictor - 10) /\ (bpp = 1 \/ t = 0 \/ t = 2)) ->
  forall n k prev, (List.length data <= n)%nat -> 0 <= k -> above dw k prev up ->
  png_loop n predictor dw k data prev = Some (prev ++ List.concat rows).
Proof.
  intros predictor bpp dw up types rows data H Hw. induction H as [up|up t tag row fs types rows data Ht Htag Hr Hf He IH];
    intros HT n k prev Hn Hk A.
  - cbn [List.concat]. rewrite app_nil_r. destruct n; reflexivity.
  - destruct n as [|n]; [simpl in Hn; lia|]. cbn [png_loop].
    destruct (HT t (or_introl eq_refl)) as [T1 T2]. destruct Hf as [Lf Hf].
    assert (Mt : (if predictor =? 15 then bv tag else predictor - 10) = t).
    { destruct (predictor =? 15) eqn:E; auto. apply Z.eqb_neq in E. destruct T1; [contradiction|auto]. }
    rewrite Mt. assert (Lz : zlen fs = dw) by (unfold zlen in *; lia).
    assert (Z1 : ztake dw (fs ++ data) = fs) by (rewrite <- Lz; apply ztake_app).
    assert (Z2 : zdrop dw (fs ++ data) = data) by (rewrite <- Lz; apply zdrop_app).
    rewrite Z1, Z2.
    replace (png_row t fs (k * dw) 0 dw prev) with (png_row t fs (k * dw) (zlen (@nil byte)) dw (prev ++ []))
      by (rewrite app_nil_r; reflexivity).
    rewrite (png_row_undo bpp t dw k prev up row A Hw Hr Ht T2 row []); auto.
    cbn [List.concat]. rewrite app_assoc. apply IH.
    + intros t' Ht'. apply HT. right. exact Ht'.
    + simpl in Hn. rewrite app_length in Hn. lia.
    + lia.
    + destruct A as [A1 A2]. split; [rewrite zlen_app; lia|]. right. split; [lia|]. split; auto. exists prev. reflexivity.
Qed.

Lemma row_width : forall n, 0 < n -> Z.quot n 8 + (if 0 <? Z.rem n 8 then 1 else 0) = (n + 7) / 8.
Proof.
  intros n H. rewrite Z.quot_div_nonneg, Z.rem_mod_nonneg by lia.
  pose proof (Z.div_mod n 8). pose proof (Z.mod_pos_bound n 8).
  destruct (0 <? n mod 8) eqn:E; [apply Z.ltb_lt in E|apply Z.ltb_ge in E].
  - apply (Z.div_unique_pos (n + 7) 8 (n / 8 + 1) (n mod 8 - 1)); lia.
  - apply (Z.div_unique_pos (n + 7) 8 (n / 8 + 0) 7); lia.
Qed.

(** the product of three positive numbers that fits *)
Lemma prod_fits : forall a b c, 1 <= a -> 1 <= b -> 1 <= c -> a * b * c < two63 ->
  wrap64 (wrap64 (a * b) * c) = a * b * c /\ 0 < a * b * c.
Proof.
  intros a b c Ha Hb Hc H. assert (1 <= a * b) by nia. assert (a * b <= a * b * c) by nia. split; [|nia].
  rewrite wrap64_mul_l. apply wrap64_small. unfold two63 in *. lia.
Qed.

Lemma png_inverts : forall fuel predictor bpc colors columns bpp w types rows data,
  10 <= predictor <= 15 -> 1 <= bpc <= 16 -> 1 <= colors -> 1 <= columns -> bpc * colors * columns < two63 ->
  bpp = (bpc * colors + 7) / 8 -> w = (bpc * colors * columns + 7) / 8 ->
  png_encoded bpp w [] types rows data ->
  (forall t, In t types -> (predictor = 15 \/ t = predictor - 10) /\ (bpp = 1 \/ t = 0 \/ t = 2)) ->
  reverse_predictor fuel predictor bpc colors columns data = Ok (List.concat rows).
Proof.
  intros fuel predictor bpc colors columns bpp w types rows data Hp Hb Hc Hl Hf -> -> He Ht. unfold reverse_predictor.
  destruct (prod_fits bpc colors columns) as [P1 P2]; auto; try lia. rewrite P1, row_width by auto.
  assert (W : 0 < (bpc * colors * columns + 7) / 8) by (apply Z.div_str_pos; lia).
  destruct ((bpc <=? 0) || (16 <? bpc)) eqn:E1.
  { apply orb_true_iff in E1. destruct E1 as [E1|E1]; [apply Z.leb_le in E1|apply Z.ltb_lt in E1]; lia. }
  destruct ((bpc * colors * columns + 7) / 8 <=? 0) eqn:E2; [apply Z.leb_le in E2; lia|].
  destruct (predictor =? 1) eqn:E3; [apply Z.eqb_eq in E3; lia|].
  destruct (predictor =? 2) eqn:E4; [apply Z.eqb_eq in E4; lia|].
  destruct ((10 <=? predictor) && (predictor <=? 15)) eqn:E5.
  2:{ apply andb_false_iff in E5. destruct E5 as [E5|E5]; apply Z.leb_gt in E5; lia. }
  assert (A : above ((bpc * colors * columns + 7) / 8) 0 [] []) by (split; [reflexivity|left; auto]).
  rewrite (png_loop_undo predictor _ _ [] types rows data He W Ht _ 0 [] (le_n _) (Z.le_refl 0) A). reflexivity.
Qed.

(** ** PNG decoding never panics (for C32) *)
Lemma png_row_total : forall t fs dw k prev r1, 0 <= k -> 0 < dw -> zlen prev = k * dw -> zlen r1 + zlen fs <= dw ->
  exists out, png_row t fs (k * dw) (zlen r1) dw (prev ++ r1) = Some (prev ++ out) /\ zlen out = zlen r1 + zlen fs.
Proof.
  induction fs as [|x fs IH]; intros dw k prev r1 Hk Hw L H.
  - exists r1. rewrite zlen_nil in *. split; auto. lia.
  - cbn [png_row]. rewrite zlen_cons in *. pose proof (zlen_nonneg _ fs). pose proof (zlen_nonneg _ r1). assert (0 <= k * dw) by (apply Z.mul_nonneg_nonneg; lia).
    assert (G : forall i, 0 <= i < k * dw + zlen r1 -> exists v, option_map bv (zget (prev ++ r1) i) = Some v).
    { intros i Hi. exists (row_at (prev ++ r1) i). apply zget_row. rewrite zlen_app. lia. }
    assert (Gl : exists v, png_left (prev ++ r1) (k * dw) (zlen r1) = Some v).
    { unfold png_left. destruct (0 <? zlen r1) eqn:E; [apply Z.ltb_lt in E; apply G; lia|eauto]. }
    assert (Gu : exists v, png_up (prev ++ r1) (k * dw) (zlen r1) dw = Some v).
    { unfold png_up. destruct (0 <=? _) eqn:E; [apply Z.leb_le in E; apply G; lia|eauto]. }
    assert (Gul : exists v, png_up_left (prev ++ r1) (k * dw) (zlen r1) dw = Some v).
    { unfold png_up_left. destruct ((0 <=? _) && _) eqn:E; [|eauto].
      apply andb_true_iff in E. destruct E as [E _]. apply Z.leb_le in E. apply G. lia. }
    destruct Gl as [v1 E1], Gu as [v2 E2], Gul as [v3 E3].
    assert (B : exists y, png_byte t x (prev ++ r1) (k * dw) (zlen r1) dw = Some y).
    { unfold png_byte. rewrite E1, E2, E3. repeat destruct (_ =? _); eauto. }
    destruct B as [y ->]. rewrite <- app_assoc.
    replace (zlen r1 + 1) with (zlen (r1 ++ [y])) by (rewrite zlen_app; reflexivity).
    destruct (IH dw k prev (r1 ++ [y])) as (out & E & Lo); auto.
    { rewrite zlen_app, zlen_cons, zlen_nil. lia. }
    exists out. rewrite E. split; auto. rewrite Lo, zlen_app, zlen_cons, zlen_nil. lia.
Qed.

Lemma png_loop_total : forall predictor dw n k data prev, 0 <= k -> 0 < dw -> zlen prev = k * dw ->
  exists out, png_loop n predictor dw k data prev = Some out.
Proof.
  intros predictor dw. induction n as [|n IH]; intros k data prev Hk Hw L; [simpl; eauto|].
  destruct data as [|tag xs]; [simpl; eauto|]. cbn [png_loop].
  set (m := if predictor =? 15 then bv tag else predictor - 10).
  assert (T : zlen (ztake dw xs) = Z.min dw (zlen xs)).
  { unfold ztake. destruct (dw <? zlen xs) eqn:E; [apply Z.ltb_lt in E|apply Z.ltb_ge in E].
    - unfold zlen in *. rewrite firstn_length. lia.
    - lia. }
  pose proof (zlen_nonneg _ xs).
  destruct (png_row_total m (ztake dw xs) dw k prev []) as (out & E & Lo); auto.
  { rewrite zlen_nil, T. lia. }
  rewrite app_nil_r in E. change (zlen (@nil byte)) with 0 in E. rewrite E. rewrite zlen_nil, T in Lo.
  destruct (Z.le_gt_cases (zlen xs) dw) as [Hx|Hx].
  - unfold zdrop. destruct (dw <? zlen xs) eqn:E2; [apply Z.ltb_lt in E2; lia|].
    destruct n; simpl; eauto.
  - apply IH; auto; [lia|]. rewrite zlen_app. lia.
Qed.

(** more fuel than the length of the data changes nothing *)
Lemma zdrop_shrinks : forall A n (l : list A), (List.length (zdrop n l) <= List.length l)%nat.
Proof. intros A n l. unfold zdrop. destruct (n <? zlen l); [rewrite skipn_length; lia|simpl; lia]. Qed.

Lemma png_fuel : forall predictor dw n m k data dec, (List.length data <= n)%nat -> (List.length data <= m)%nat ->
  png_loop n predictor dw k data dec = png_loop m predictor dw k data dec.
Proof.
  intros predictor dw. induction n as [|n IH]; intros m k data dec Hn Hm.
  - destruct data; [|simpl in Hn; lia]. destruct m; reflexivity.
  - destruct m as [|m]; [destruct data; [reflexivity|simpl in Hm; lia]|].
    destruct data as [|tag xs]; [reflexivity|]. cbn [png_loop]. simpl in *.
    destruct (png_row _ _ _ _ _ _); auto. pose proof (zdrop_shrinks _ dw xs). apply IH; lia.
Qed.
