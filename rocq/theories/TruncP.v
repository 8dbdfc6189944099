(** TruncP.v -- decoders on data of which the end is missing (C125). *)
From Verif Require Import Base BaseP Lexer Bits Filters SpecLex SpecFilters SpecTrunc FiltersP PngP.
From Coq Require Import Strings.String.
Local Open Scope Z_scope.

Lemma agrees_pre : forall k m l x y p, agrees_but k m l x y -> agrees_but k m l (p ++ x) (p ++ y).
Proof. intros k m l x y p (u & s & s' & -> & -> & H1 & H2). exists (p ++ u), s, s'. rewrite !app_assoc. auto. Qed.

Lemma agrees_nil : forall k m l y, 0 <= k -> zlen y <= m * zlen l -> agrees_but k m l [] y.
Proof. intros k m l y Hk H. exists [], [], y. rewrite zlen_nil. repeat split; auto; lia. Qed.

(** ** ASCIIHexDecode *)
Lemma ahex_len : forall n l, zlen (ahex_loop n l) <= zlen l.
Proof.
  induction n as [|n IH]; intros l; [apply zlen_nonneg|]. destruct l as [|b r]; [cbn [ahex_loop]; lia|].
  cbn [ahex_loop]. rewrite zlen_cons. pose proof (zlen_nonneg _ r).
  destruct (is_ws b); [pose proof (IH r); lia|]. destruct (beq b ">"%byte); [rewrite zlen_nil; lia|].
  destruct (ahex_second r) as [b2 r2] eqn:E. apply ahex_second_len in E.
  assert (zlen r2 <= zlen r) by (unfold zlen; lia). pose proof (IH r2).
  destruct (is_hex b && is_hex b2); [rewrite zlen_cons|]; lia.
Qed.

(** the second digit is found before the cut, or everything left is white space *)
Lemma second_app : forall a, (forall b, exists c r, ahex_second (a ++ b) = (c, r ++ b) /\ ahex_second a = (c, r)) \/
  (ahex_second a = ("0"%byte, []) /\ forall b, ahex_second (a ++ b) = ahex_second b).
Proof.
  induction a as [|x a IH]; [right; split; reflexivity|]. cbn [app ahex_second].
  destruct (is_ws x); [exact IH|]. left. intros b.
  destruct (beq x ">"%byte); [exists "0"%byte, (x :: a)|exists x, a]; split; reflexivity.
Qed.

Lemma ahex_agrees : forall n a b, (List.length a <= n)%nat ->
  agrees_but 1 1 b (ascii_hex_decode a) (ascii_hex_decode (a ++ b)).
Proof.
  induction n as [|n IH]; intros a b L.
  - destruct a; [|simpl in L; lia]. apply agrees_nil; [lia|]. pose proof (ahex_len (List.length b) b). change (zlen (ascii_hex_decode b) <= 1 * zlen b). unfold ascii_hex_decode. lia.
  - destruct a as [|x a]; [apply IH; simpl; lia|]. simpl in L.
    rewrite (ahex_eq (x :: a)), (ahex_eq ((x :: a) ++ b)). cbn [app].
    pose proof (zlen_nonneg _ b).
    destruct (is_ws x); [apply IH; lia|].
    destruct (beq x ">"%byte); [apply agrees_nil; rewrite ?zlen_nil; lia|].
    destruct (second_app a) as [H1|[H1 H2]].
    + destruct (H1 b) as (c & r & E1 & E2). rewrite E1, E2. apply ahex_second_len in E2.
      destruct (is_hex x && is_hex c); [apply (agrees_pre _ _ _ _ _ [hex2 x c])|]; apply IH; lia.
    + rewrite H1, H2. change (is_hex "0"%byte) with true. rewrite andb_true_r.
      change (ascii_hex_decode []) with (@nil byte).
      destruct (ahex_second b) as [c r] eqn:E. apply ahex_second_len in E.
      assert (zlen (ascii_hex_decode r) <= zlen b).
      { pose proof (ahex_len (List.length r) r). unfold ascii_hex_decode. unfold zlen in *. lia. }
      destruct (is_hex x); cbn [andb].
      * destruct (is_hex c).
        { exists [], [hex2 x "0"%byte], (hex2 x c :: ascii_hex_decode r). rewrite !zlen_cons, zlen_nil. repeat split; lia. }
        { exists [], [hex2 x "0"%byte], (ascii_hex_decode r). rewrite !zlen_cons, zlen_nil. repeat split; lia. }
      * apply agrees_nil; lia.
Qed.

Lemma hex_truncated : forall a b, agrees_but 1 1 b (ascii_hex_decode a) (ascii_hex_decode (a ++ b)).
Proof. intros a b. apply (ahex_agrees (List.length a)). lia. Qed.

(** ** ASCII85Decode *)
Lemma finish_app : forall v n acc, a85_finish v n acc = acc ++ a85_finish v n [].
Proof. intros v n acc. unfold a85_finish. destruct (1 <? Z.of_nat n); [reflexivity|symmetry; apply app_nil_r]. Qed.

Lemma a85_acc : forall l v n acc, a85_loop l v n acc = acc ++ a85_loop l v n [].
Proof.
  induction l as [|b l IH]; intros v n acc; cbn [a85_loop]; [apply finish_app|].
  destruct (beq b "~"%byte); [apply finish_app|]. destruct (is_ws b); [apply IH|].
  destruct (beq b "z"%byte).
  - destruct (n =? 0)%nat; [|apply IH]. rewrite IH, (IH v n ([] ++ _)), <- app_assoc. reflexivity.
  - destruct (_ || _); [apply IH|]. destruct (5 <=? S n)%nat; [|apply IH].
    rewrite IH, (IH 0 0%nat ([] ++ _)), <- app_assoc. reflexivity.
Qed.

Lemma finish_len : forall v n, (n <= 4)%nat -> zlen (a85_finish v n []) = Z.max 0 (Z.of_nat n - 1).
Proof.
  intros v n H. unfold a85_finish. destruct (1 <? Z.of_nat n) eqn:E; [apply Z.ltb_lt in E|apply Z.ltb_ge in E].
  - cbn [app]. unfold zlen. rewrite firstn_length. cbn [be32 List.length]. lia.
  - rewrite zlen_nil. lia.
Qed.

Lemma a85_len : forall l v n, (n <= 4)%nat -> zlen (a85_loop l v n []) <= Z.max 0 (Z.of_nat n - 1) + 4 * zlen l.
Proof.
  induction l as [|b l IH]; intros v n H; cbn [a85_loop]; [rewrite finish_len, zlen_nil by auto; lia|].
  rewrite zlen_cons. pose proof (zlen_nonneg _ l).
  destruct (beq b "~"%byte); [rewrite finish_len by auto; lia|].
  destruct (is_ws b); [pose proof (IH v n H); lia|].
  destruct (beq b "z"%byte).
  - destruct (n =? 0)%nat; [|pose proof (IH v n H); lia].
    rewrite a85_acc, zlen_app. pose proof (IH v n H). cbn [app]. rewrite !zlen_cons, zlen_nil. lia.
  - destruct (_ || _); [pose proof (IH v n H); lia|].
    destruct (5 <=? S n)%nat eqn:E; [apply Nat.leb_le in E|apply Nat.leb_gt in E].
    + rewrite a85_acc, zlen_app. pose proof (IH 0 0%nat ltac:(lia)). cbn [app]. unfold be32. rewrite !zlen_cons, zlen_nil. lia.
    + pose proof (IH (wrap32 (wrap32 (v * 85) + wrap32 (bv b - 33))) (S n) ltac:(lia)). lia.
Qed.

Lemma a85_agrees : forall a v n b, (n <= 4)%nat -> agrees_but 3 4 b (a85_loop a v n []) (a85_loop (a ++ b) v n []).
Proof.
  induction a as [|x a IH]; intros v n b H; cbn [app a85_loop].
  - exists [], (a85_finish v n []), (a85_loop b v n []). pose proof (a85_len b v n H). rewrite finish_len by auto.
    repeat split; lia.
  - assert (S0 : forall x, zlen x <= 3 -> agrees_but 3 4 b x x).
    { intros z Hz. exists [], z, z. pose proof (zlen_nonneg _ b). repeat split; lia. }
    destruct (beq x "~"%byte); [apply S0; rewrite finish_len by auto; lia|].
    destruct (is_ws x); [apply IH; auto|].
    destruct (beq x "z"%byte).
    + destruct (n =? 0)%nat; [|apply IH; auto].
      rewrite (a85_acc a), (a85_acc (a ++ b)). apply agrees_pre, IH; auto.
    + destruct (_ || _); [apply IH; auto|].
      destruct (5 <=? S n)%nat eqn:E; [|apply Nat.leb_gt in E; apply IH; lia].
      rewrite (a85_acc a), (a85_acc (a ++ b)). apply agrees_pre, IH; lia.
Qed.

Lemma a85_truncated : forall a b, agrees_but 3 4 b (ascii85_decode a) (ascii85_decode (a ++ b)).
Proof. intros a b. apply a85_agrees. lia. Qed.

(** ** RunLengthDecode *)
Definition rl_rest (b s : bytes) : Prop := s = [] \/ (exists j, s = firstn j b ++ run_length_decode (skipn j b)) \/
  exists c b' k, b = c :: b' /\ (2 <= k <= 128)%nat /\ s = repeat c k ++ run_length_decode b'.

Lemma rl_prefix : forall n a b, (List.length a <= n)%nat -> exists s, run_length_decode (a ++ b) = run_length_decode a ++ s /\ rl_rest b s.
Proof.
  induction n as [|n IH]; intros a b L.
  - destruct a; [|simpl in L; lia]. exists (run_length_decode b). split; [reflexivity|]. right; left. exists 0%nat. reflexivity.
  - destruct a as [|c r]; [apply IH; simpl; lia|]. simpl in L.
    rewrite (rl_eq (c :: r)), (rl_eq ((c :: r) ++ b)). cbn [app]. pose proof (bv_range c).
    assert (Z0 : exists s, @nil byte = [] ++ s /\ rl_rest b s) by (exists []; split; [reflexivity|left; reflexivity]).
    destruct (bv c =? 128) eqn:E1; [exact Z0|]. apply Z.eqb_neq in E1.
    destruct (bv c <? 128) eqn:E2; [apply Z.ltb_lt in E2|apply Z.ltb_ge in E2].
    + assert (D : forall l : bytes, match l with [] => [] | _ :: _ => if zlen l <? bv c + 1 then l else firstn (Z.to_nat (bv c + 1)) l ++ run_length_decode (skipn (Z.to_nat (bv c + 1)) l) end
        = (if zlen l <? bv c + 1 then l else firstn (Z.to_nat (bv c + 1)) l ++ run_length_decode (skipn (Z.to_nat (bv c + 1)) l))).
      { intros [|y l]; [|reflexivity]. rewrite zlen_nil. destruct (0 <? bv c + 1) eqn:E; [reflexivity|apply Z.ltb_ge in E; lia]. }
      rewrite !D, zlen_app. set (k := bv c + 1) in *. pose proof (zlen_nonneg _ r). pose proof (zlen_nonneg _ b).
      destruct (zlen r <? k) eqn:E3; [apply Z.ltb_lt in E3|apply Z.ltb_ge in E3].
      * destruct (zlen r + zlen b <? k) eqn:E4.
        { exists b. split; [reflexivity|]. right; left. exists (List.length b). rewrite firstn_all, skipn_all. symmetry. apply app_nil_r. }
        rewrite firstn_app, skipn_app, (firstn_all2 r), (skipn_all2 r) by (unfold zlen in *; lia). cbn [app].
        rewrite <- app_assoc. eexists. split; [reflexivity|]. right; left. eexists. reflexivity.
      * destruct (zlen r + zlen b <? k) eqn:E4; [apply Z.ltb_lt in E4; lia|].
        rewrite firstn_app, skipn_app. replace (Z.to_nat k - List.length r)%nat with 0%nat by (unfold zlen in *; lia).
        cbn [firstn skipn]. rewrite app_nil_r.
        destruct (IH (skipn (Z.to_nat k) r) b) as (s & E & R); [rewrite skipn_length; lia|].
        rewrite E, app_assoc. exists s. auto.
    + destruct r as [|x r].
      * cbn [app]. destruct b as [|y b]; [exact Z0|].
        eexists. split; [reflexivity|]. right; right. exists y, b, (Z.to_nat (257 - bv c)). repeat split; lia.
      * cbn [app]. simpl in L. destruct (IH r b) as (s & E & R); [lia|]. rewrite E, app_assoc. exists s. auto.
Qed.

Lemma rl_truncated : forall a b, exists s, run_length_decode (a ++ b) = run_length_decode a ++ s /\
  (s = [] \/ (exists j, s = firstn j b ++ run_length_decode (skipn j b)) \/
   exists c b' k, b = c :: b' /\ (2 <= k <= 128)%nat /\ s = repeat c k ++ run_length_decode b').
Proof. intros a b. exact (rl_prefix _ a b (le_n _)). Qed.

(** ** PNG predictors *)
Lemma png_row_app : forall m xs ys dr dc dw dec, png_row m (xs ++ ys) dr dc dw dec =
  match png_row m xs dr dc dw dec with Some d => png_row m ys dr (dc + zlen xs) dw d | None => None end.
Proof.
  induction xs as [|x xs IH]; intros ys dr dc dw dec; cbn [app png_row]; [rewrite zlen_nil, Z.add_0_r; reflexivity|].
  destruct (png_byte m x dec dr dc dw); [|reflexivity]. rewrite IH, zlen_cons, Z.add_assoc. reflexivity.
Qed.

Lemma png_row_grows : forall m xs dr dc dw dec d, png_row m xs dr dc dw dec = Some d -> exists s, d = dec ++ s /\ zlen s = zlen xs.
Proof.
  induction xs as [|x xs IH]; intros dr dc dw dec d H; cbn [png_row] in H.
  - injection H as <-. exists []. rewrite app_nil_r. auto.
  - destruct (png_byte m x dec dr dc dw) as [y|]; [|discriminate].
    destruct (IH _ _ _ _ _ H) as (s & -> & E). exists (y :: s). rewrite <- app_assoc, !zlen_cons, E. auto.
Qed.

Lemma png_loop_grows : forall pr dw n k data dec d, 0 < dw -> png_loop n pr dw k data dec = Some d ->
  exists s, d = dec ++ s /\ zlen s <= zlen data.
Proof.
  intros pr dw. induction n as [|n IH]; intros k data dec d Hw H; cbn [png_loop] in H.
  - injection H as <-. exists []. rewrite app_nil_r. split; auto. apply zlen_nonneg.
  - destruct data as [|t xs]; [injection H as <-; exists []; rewrite app_nil_r; split; auto; apply zlen_nonneg|].
    destruct (png_row _ _ _ _ _ _) as [d1|] eqn:E; [|discriminate].
    destruct (png_row_grows _ _ _ _ _ _ _ E) as (s1 & -> & L1). destruct (IH _ _ _ _ Hw H) as (s2 & -> & L2).
    exists (s1 ++ s2). rewrite app_assoc. split; auto. rewrite zlen_app, zlen_cons.
    assert (zlen xs = zlen (ztake dw xs) + zlen (zdrop dw xs)) by (rewrite <- zlen_app, ztake_zdrop by lia; reflexivity). lia.
Qed.

Lemma png_loop_prefix : forall pr dw n m k a b dec x y, 0 < dw -> (List.length a <= n)%nat -> (List.length (a ++ b) <= m)%nat ->
  png_loop n pr dw k a dec = Some x -> png_loop m pr dw k (a ++ b) dec = Some y ->
  exists s, y = x ++ s /\ zlen s <= zlen b.
Proof.
  intros pr dw. induction n as [|n IH]; intros m k a b dec x y Hw La Lb Ha Hb.
  - destruct a; [|simpl in La; lia]. injection Ha as <-. apply (png_loop_grows _ _ _ _ _ _ _ Hw Hb).
  - destruct a as [|t xs]; [injection Ha as <-; apply (png_loop_grows _ _ _ _ _ _ _ Hw Hb)|].
    destruct m as [|m]; [simpl in Lb; lia|]. cbn [app List.length] in *. cbn [png_loop] in Ha, Hb.
    set (me := if pr =? 15 then bv t else pr - 10) in *.
    destruct (Z.le_gt_cases dw (zlen xs)) as [C|C].
    + assert (T : ztake dw (xs ++ b) = ztake dw xs).
      { rewrite !ztake_firstn by lia. rewrite firstn_app. replace (Z.to_nat dw - List.length xs)%nat with 0%nat by (unfold zlen in *; lia). apply app_nil_r. }
      assert (D : zdrop dw (xs ++ b) = zdrop dw xs ++ b).
      { rewrite !zdrop_skipn by lia. rewrite skipn_app. replace (Z.to_nat dw - List.length xs)%nat with 0%nat by (unfold zlen in *; lia). reflexivity. }
      rewrite T, D in Hb. destruct (png_row _ _ _ _ _ _) as [d1|]; [|discriminate].
      pose proof (zdrop_shrinks _ dw xs). rewrite app_length in Lb.
      apply (IH m (k + 1) (zdrop dw xs) b d1 x y); auto; rewrite ?app_length; lia.
    + assert (T : ztake dw xs = xs). { rewrite ztake_firstn by lia. apply firstn_all2. unfold zlen in *. lia. }
      assert (D : zdrop dw xs = []). { rewrite zdrop_skipn by lia. apply skipn_all2. unfold zlen in *. lia. }
      set (j := (Z.to_nat dw - List.length xs)%nat) in *.
      assert (T2 : ztake dw (xs ++ b) = xs ++ firstn j b).
      { rewrite ztake_firstn by lia. rewrite firstn_app, firstn_all2 by (unfold zlen in *; lia). reflexivity. }
      assert (D2 : zdrop dw (xs ++ b) = skipn j b).
      { rewrite zdrop_skipn by lia. rewrite skipn_app, skipn_all2 by (unfold zlen in *; lia). reflexivity. }
      rewrite T, D in Ha. rewrite T2, D2, png_row_app in Hb.
      destruct (png_row me xs (k * dw) 0 dw dec) as [d1|]; [|discriminate].
      assert (x = d1) as -> by (destruct n; injection Ha as <-; reflexivity).
      destruct (png_row me (firstn j b) _ _ _ _) as [d2|] eqn:E; [|discriminate].
      destruct (png_row_grows _ _ _ _ _ _ _ E) as (s1 & -> & L1). destruct (png_loop_grows _ _ _ _ _ _ _ Hw Hb) as (s2 & -> & L2).
      exists (s1 ++ s2). rewrite app_assoc. split; auto. rewrite zlen_app, L1.
      assert (zlen b = zlen (firstn j b) + zlen (skipn j b)) by (rewrite <- zlen_app, firstn_skipn; reflexivity). lia.
Qed.

Lemma predictor_truncated : forall fuel predictor bpc colors columns a b, predictor <> 2 -> exists x s,
  reverse_predictor fuel predictor bpc colors columns a = Ok x /\
  reverse_predictor fuel predictor bpc colors columns (a ++ b) = Ok (x ++ s) /\ zlen s <= zlen b.
Proof.
  intros fuel predictor bpc colors columns a b N. unfold reverse_predictor.
  assert (K : exists x s : bytes, Ok a = Ok x /\ Ok (a ++ b) = Ok (x ++ s) /\ zlen s <= zlen b) by (exists a, b; repeat split; lia).
  destruct (_ || _); [exact K|]. set (w := Z.quot _ 8 + _).
  destruct (w <=? 0) eqn:W; [exact K|]. apply Z.leb_gt in W.
  destruct (predictor =? 1); [exact K|]. destruct (predictor =? 2) eqn:P; [apply Z.eqb_eq in P; contradiction|].
  destruct (_ && _); [|exact K].
  destruct (png_loop_total predictor w (List.length a) 0 a []) as [x Ex]; [lia|auto|reflexivity|].
  destruct (png_loop_total predictor w (List.length (a ++ b)) 0 (a ++ b) []) as [y Ey]; [lia|auto|reflexivity|].
  destruct (png_loop_prefix _ _ _ _ _ _ _ _ _ _ W (le_n _) (le_n _) Ex Ey) as (s & -> & L).
  rewrite Ex, Ey. exists x, s. auto.
Qed.
