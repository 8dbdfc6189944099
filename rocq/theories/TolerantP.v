(** TolerantP.v -- every text is read as the grammar of SpecTolerant says. *)
From Verif Require Import Base BaseP Msg Reader ReaderP Num NumP Lexer Obj ReadObj Plain LexerP ReadObjP PObjP
  SpecLex SpecLexP SpecObj SpecNumP SpecObjP SpecRead ReadP SpecTolerant.
From Coq Require Import Strings.String.

(** ** Strings *)
Lemma octal_cut : forall t, ~ starts_with_octal t -> t = [] \/ exists b r, t = b :: r /\ is_octal b = false.
Proof. intros [|b r] H; auto. right. exists b, r. split; auto. eapply starts_octal_false; eauto. Qed.

Lemma oct_value1 : forall a x w, octdigit a x -> bv w = Z.of_nat x -> oct [a] = w.
Proof. intros. unfold oct. rewrite (oct1 _ _ H). apply zb_value; auto. Qed.
Lemma oct_value2 : forall a b x y w, octdigit a x -> octdigit b y -> bv w = Z.of_nat (8 * x + y) -> oct [a; b] = w.
Proof. intros. unfold oct. rewrite (oct2 _ _ _ _ H H0). apply zb_value; auto. Qed.
Lemma oct_value3 : forall a b c x y z w, octdigit a x -> octdigit b y -> octdigit c z ->
  bv w = Z.of_nat (64 * x + 8 * y + z) -> oct [a; b; c] = w.
Proof. intros. unfold oct. rewrite (oct3 _ _ _ _ _ _ H H0 H1). apply zb_value; auto. Qed.

Lemma str_in_p : forall n t v ms r, str_in n t v ms r -> p_str (Z.of_nat n + 1) t = ((v, r), ms).
Proof.
  induction 1; try (rewrite p_str_cons); try reflexivity.
  - change (beq ")"%byte "\"%byte) with false. cbv iota zeta. change (beq ")"%byte "("%byte) with false.
    change (beq ")"%byte ")"%byte) with true. cbv iota.
    replace (Z.of_nat (S n) + 1 - 1) with (Z.of_nat n + 1) by lia.
    replace (Z.of_nat n + 1 =? 0) with false by (symmetry; apply Z.eqb_neq; lia). rewrite IHstr_in. reflexivity.
  - change (beq "("%byte "\"%byte) with false. cbv iota zeta. change (beq "("%byte "("%byte) with true. cbv iota.
    replace (Z.of_nat n + 1 + 1) with (Z.of_nat (S n) + 1) by lia.
    replace (Z.of_nat (S n) + 1 =? 0) with false by (symmetry; apply Z.eqb_neq; lia). rewrite IHstr_in. reflexivity.
  - apply beq_neq in H, H0, H1. rewrite H, H0, H1. cbv zeta.
    replace (Z.of_nat n + 1 =? 0) with false by (symmetry; apply Z.eqb_neq; lia). rewrite IHstr_in. reflexivity.
  - destruct (esc_letter_spec _ _ H) as (E1 & E2 & E3 & E4). change (beq "\"%byte "\"%byte) with true. cbv iota.
    rewrite E1, E2, E3, E4, IHstr_in. reflexivity.
  - change (beq "\"%byte "\"%byte) with true. cbv iota.
    pose proof (eol_false _ H1) as E. apply orb_false_iff in E. destruct E as [E1 E2].
    rewrite E1, E2, (no_octdigit _ H0), (unescape_other _ H), IHstr_in. reflexivity.
  - exact IHstr_in.
  - exact IHstr_in.
  - change (beq "\"%byte "\"%byte) with true. change (beq x0d x0a) with false. change (beq x0d x0d) with true. cbv iota.
    destruct t as [|d t]; [congruence|]. destruct (beq d x0a) eqn:E; [|exact IHstr_in].
    apply beq_eq in E. subst d. exfalso. apply H0. exists t. reflexivity.
  - change (beq "\"%byte "\"%byte) with true. cbv iota. destruct (octal_eol _ _ H) as (E1 & E2 & E3).
    destruct (octal_eol _ _ H0) as (_ & _ & F3). destruct (octal_eol _ _ H1) as (_ & _ & G3).
    rewrite E1, E2, E3, F3, G3. rewrite (oct_value3 _ _ _ _ _ _ _ H H0 H1 H2), (oct3 _ _ _ _ _ _ H H0 H1), <- H2.
    pose proof (bv_range w). replace (bv w <=? 255) with true by (symmetry; apply Z.leb_le; lia).
    rewrite IHstr_in, (str_msg_count _ _ H3). reflexivity.
  - change (beq "\"%byte "\"%byte) with true. cbv iota. destruct (octal_eol _ _ H) as (E1 & E2 & E3).
    destruct (octal_eol _ _ H0) as (_ & _ & F3). rewrite E1, E2, E3, F3.
    destruct (octal_cut _ H2) as [->|(c & r' & -> & G)]; [congruence|]. rewrite G.
    rewrite (oct_value2 _ _ _ _ _ H H0 H3), IHstr_in, (str_msg_count _ _ H4). reflexivity.
  - change (beq "\"%byte "\"%byte) with true. cbv iota. destruct (octal_eol _ _ H) as (E1 & E2 & E3).
    rewrite E1, E2, E3. destruct (octal_cut _ H1) as [->|(c & r' & -> & G)]; [congruence|]. rewrite G.
    rewrite (oct_value1 _ _ _ H H2), IHstr_in, (str_msg_count _ _ H3). reflexivity.
  - change (beq "\"%byte "\"%byte) with true. cbv iota. destruct (octal_eol _ _ H) as (E1 & E2 & E3).
    destruct (octal_eol _ _ H0) as (_ & _ & F3). destruct (octal_eol _ _ H1) as (_ & _ & G3).
    rewrite E1, E2, E3, F3, G3. rewrite (oct3 _ _ _ _ _ _ H H0 H1).
    replace (Z.of_nat (64 * x + 8 * y + z) <=? 255) with false by (symmetry; apply Z.leb_gt; lia).
    rewrite (oct_value2 _ _ _ _ _ H H0 H3), IHstr_in, (str_msg_count _ _ H4). reflexivity.
  - change (beq "\"%byte "\"%byte) with true. cbv iota. destruct (octal_eol _ _ H) as (E1 & E2 & E3).
    rewrite E1, E2, E3, (oct_value1 _ _ _ H H0), (str_msg_count _ _ H1). reflexivity.
  - change (beq "\"%byte "\"%byte) with true. cbv iota. destruct (octal_eol _ _ H) as (E1 & E2 & E3).
    destruct (octal_eol _ _ H0) as (_ & _ & F3).
    rewrite E1, E2, E3, F3, (oct_value2 _ _ _ _ _ H H0 H1), (str_msg_count _ _ H2). reflexivity.
Qed.

Lemma byte_of : forall n, (n < 256)%nat -> exists w, bv w = Z.of_nat n.
Proof. intros n H. exists (zb (Z.of_nat n)). rewrite bv_zb. apply Z.mod_small. lia. Qed.
Lemma count_of : forall ex w, exists j, code_count ex w j.
Proof.
  intros ex w. destruct (in_dec Byte.byte_eq_dec w ex) as [H|H].
  - exists 0%nat. apply cc_needed. unfold needless. tauto.
  - destruct (Z_le_dec 33 (bv w)) as [H1|H1]; [destruct (Z_le_dec (bv w) 126) as [H2|H2]|].
    + exists 1%nat. apply cc_needless. unfold needless. auto.
    + exists 0%nat. apply cc_needed. unfold needless. lia.
    + exists 0%nat. apply cc_needed. unfold needless. lia.
Qed.
Lemma octdigit_dec : forall b, (exists x, octdigit b x) \/ (forall x, ~ octdigit b x).
Proof.
  intros b. destruct (is_octal b) eqn:E.
  - left. exists (Z.to_nat (bv b - 48)). apply octdigit_spec. split; auto.
    unfold is_octal in E. apply andb_true_iff in E. destruct E as [E _]. apply Z.leb_le in E. lia.
  - right. intros x H. apply octdigit_spec in H. destruct H. congruence.
Qed.
Lemma hexdigit_dec : forall b, (exists x, hexdigit b x) \/ (forall x, ~ hexdigit b x).
Proof.
  intros b. destruct (is_hex b) eqn:E.
  - left. exists (Z.to_nat (hexval b)). apply hexdigit_spec. split; auto.
    revert E. destruct b; intros E; try discriminate; reflexivity.
  - right. intros x H. apply hexdigit_spec in H. destruct H. congruence.
Qed.
Lemma esc_dec : forall c, (exists b, esc_letter c b) \/ (forall b, ~ esc_letter c b).
Proof.
  intros c. destruct (in_dec Byte.byte_eq_dec c (lit "nrtbf()\")) as [H|H].
  - left. simpl in H. repeat destruct H as [<-|H]; try contradiction; eexists; constructor.
  - right. intros b E. apply H. destruct E; vm_compute; tauto.
Qed.

Lemma str_in_total : forall t n, exists v ms r, str_in n t v ms r.
Proof.
  induction t as [t IH] using len_ind. intros n. destruct t as [|b t]; [do 3 eexists; constructor|].
  destruct (Byte.byte_eq_dec b "\"%byte) as [->|N1].
  - destruct t as [|c t1]; [do 3 eexists; apply si_escape_end|].
    destruct (octdigit_dec c) as [(x & Hx)|Nx].
    + pose proof (octdigit_lt _ _ Hx) as Lx.
      destruct t1 as [|d t2].
      * destruct (byte_of x) as (w & Hw); [lia|]. destruct (count_of (lit "\()") w) as (j & Hj).
        do 3 eexists. eapply si_octal1_end; eauto.
      * destruct (octdigit_dec d) as [(y & Hy)|Ny].
        -- pose proof (octdigit_lt _ _ Hy) as Ly. destruct (byte_of (8 * x + y)) as (w & Hw); [lia|].
           destruct (count_of (lit "\()") w) as (j & Hj).
           destruct t2 as [|e t3]; [do 3 eexists; eapply si_octal2_end; eauto|].
           destruct (octdigit_dec e) as [(z & Hz)|Nz].
           ++ pose proof (octdigit_lt _ _ Hz) as Lz. destruct (le_lt_dec (64 * x + 8 * y + z) 255) as [Hle|Hgt].
              ** destruct (byte_of (64 * x + 8 * y + z)) as (w' & Hw'); [lia|].
                 destruct (count_of (lit "\()") w') as (j' & Hj').
                 destruct (IH t3) with (n := n) as (v & ms & r & S); [simpl; lia|].
                 do 3 eexists. eapply si_octal3; eauto.
              ** destruct (IH (e :: t3)) with (n := n) as (v & ms & r & S); [simpl; lia|].
                 do 3 eexists. eapply si_octal_large; eauto.
           ++ destruct (IH (e :: t3)) with (n := n) as (v & ms & r & S); [simpl; lia|].
              do 3 eexists. eapply si_octal2; eauto; [discriminate|].
              intros (b & r0 & v0 & E & O). injection E as <- <-. exact (Nz _ O).
        -- destruct (byte_of x) as (w & Hw); [lia|]. destruct (count_of (lit "\()") w) as (j & Hj).
           destruct (IH (d :: t2)) with (n := n) as (v & ms & r & S); [simpl; lia|].
           do 3 eexists. eapply si_octal1; eauto; [discriminate|].
           intros (b & r0 & v0 & E & O). injection E as <- <-. exact (Ny _ O).
    + destruct (esc_dec c) as [(b & Hb)|Nb].
      * destruct (IH t1) with (n := n) as (v & ms & r & S); [simpl; lia|]. do 3 eexists. eapply si_letter; eauto.
      * destruct (Byte.byte_eq_dec c x0a) as [->|N2].
        { destruct (IH t1) with (n := n) as (v & ms & r & S); [simpl; lia|]. do 3 eexists. eapply si_lf; eauto. }
        destruct (Byte.byte_eq_dec c x0d) as [->|N3].
        { destruct t1 as [|d t2]; [do 3 eexists; apply si_cr_end|].
          destruct (Byte.byte_eq_dec d x0a) as [->|N4].
          - destruct (IH t2) with (n := n) as (v & ms & r & S); [simpl; lia|]. do 3 eexists. eapply si_crlf; eauto.
          - destruct (IH (d :: t2)) with (n := n) as (v & ms & r & S); [simpl; lia|]. do 3 eexists.
            eapply si_cr; eauto; [discriminate|]. intros (r0 & E). injection E as E _. contradiction. }
        destruct (IH t1) with (n := n) as (v & ms & r & S); [simpl; lia|].
        do 3 eexists. eapply si_unknown; eauto. intros [|]; contradiction.
  - destruct (Byte.byte_eq_dec b "("%byte) as [->|N2].
    { destruct (IH t) with (n := Datatypes.S n) as (v & ms & r & S); [simpl; lia|]. do 3 eexists. eapply si_open; eauto. }
    destruct (Byte.byte_eq_dec b ")"%byte) as [->|N3].
    { destruct n as [|n]; [do 3 eexists; apply si_close|].
      destruct (IH t) with (n := n) as (v & ms & r & S); [simpl; lia|]. do 3 eexists. eapply si_inner; eauto. }
    destruct (IH t) with (n := n) as (v & ms & r & S); [simpl; lia|]. do 3 eexists. eapply si_plain; eauto.
Qed.

(** ** Names *)
Lemma name_in_p : forall t v ms r, name_in t v ms r -> p_name t = ((v, r), ms).
Proof.
  induction 1.
  - destruct (ends_token_split _ H) as [->|(b & r' & -> & E)]; [reflexivity|]. rewrite p_name_cons, E. reflexivity.
  - destruct H as [Q1 Q2]. rewrite p_name_cons, (is_delim_false _ Q2), (is_ws_false _ Q1). apply beq_neq in H0.
    cbv [orb]. rewrite H0, IHname_in. reflexivity.
  - rewrite p_name_cons. change (is_delim "#"%byte || is_ws "#"%byte) with false. change (beq "#"%byte "#"%byte) with true.
    cbv iota. rewrite (hex2_value _ _ _ _ _ H H0 H1). apply hexdigit_spec in H, H0.
    destruct H as [H _]. destruct H0 as [H0 _]. rewrite H, H0, IHname_in, (name_msg_count _ _ H2). reflexivity.
  - rewrite p_name_cons. change (is_delim "#"%byte || is_ws "#"%byte) with false. change (beq "#"%byte "#"%byte) with true.
    cbv iota. rewrite (no_hexdigit _ H), IHname_in. reflexivity.
  - rewrite p_name_cons. change (is_delim "#"%byte || is_ws "#"%byte) with false. change (beq "#"%byte "#"%byte) with true.
    cbv iota. rewrite (no_hexdigit _ H0), IHname_in.
    assert (E : hex2 a "0" = w).
    { apply (hex2_value a "0"%byte x 0); auto. apply hexdigit_spec. split; reflexivity. rewrite Nat.add_0_r. auto. }
    apply hexdigit_spec in H. destruct H as [H _]. rewrite H, E, (name_msg_count _ _ H2). reflexivity.
  - reflexivity.
  - rewrite p_name_cons. change (is_delim "#"%byte || is_ws "#"%byte) with false. change (beq "#"%byte "#"%byte) with true.
    cbv iota. assert (E : hex2 a "0" = w).
    { apply (hex2_value a "0"%byte x 0); auto. apply hexdigit_spec. split; reflexivity. rewrite Nat.add_0_r. auto. }
    apply hexdigit_spec in H. destruct H as [H _]. rewrite H, E, (name_msg_count _ _ H1). cbv [out].
    rewrite app_nil_r. reflexivity.
Qed.

Lemma name_in_total : forall t, exists v ms r, name_in t v ms r.
Proof.
  induction t as [t IH] using len_ind. destruct t as [|b t]; [do 3 eexists; apply ni_end; left; auto|].
  destruct (is_delim b || is_ws b) eqn:E.
  { do 3 eexists. apply ni_end. right. exists b, t. split; auto. apply orb_true_iff in E. destruct E as [E|E].
    - right. apply is_delim_spec. auto.
    - left. apply is_ws_spec. auto. }
  apply orb_false_iff in E. destruct E as [E1 E2].
  assert (R : regular_byte b).
  { split; intros K; [apply is_ws_spec in K|apply is_delim_spec in K]; congruence. }
  destruct (Byte.byte_eq_dec b "#"%byte) as [->|N].
  - destruct t as [|a t]; [do 3 eexists; apply ni_no_digit_end|].
    destruct (hexdigit_dec a) as [(x & Hx)|Nx].
    + pose proof (hexdigit_lt _ _ Hx) as Lx. destruct (byte_of (16 * x)) as (w & Hw); [lia|].
      destruct (count_of (lit "#()<>[]/%") w) as (j & Hj).
      destruct t as [|c t]; [do 3 eexists; eapply ni_one_digit_end; eauto|].
      destruct (hexdigit_dec c) as [(y & Hy)|Ny].
      * pose proof (hexdigit_lt _ _ Hy) as Ly. destruct (byte_of (16 * x + y)) as (w' & Hw'); [lia|].
        destruct (count_of (lit "#()<>[]/%") w') as (j' & Hj').
        destruct (IH t) as (v & ms & r & S); [simpl; lia|]. do 3 eexists. eapply ni_code; eauto.
      * destruct (IH (c :: t)) as (v & ms & r & S); [simpl; lia|]. do 3 eexists. eapply ni_one_digit; eauto.
    + destruct (IH (a :: t)) as (v & ms & r & S); [simpl; lia|]. do 3 eexists. eapply ni_no_digit; eauto.
  - destruct (IH t) as (v & ms & r & S); [simpl; lia|]. do 3 eexists. eapply ni_char; eauto.
Qed.

(** ** Hexadecimal strings *)
Lemma p_hex_gap : forall g, gap g -> forall c1 l, p_hex c1 (g ++ l) = p_hex c1 l.
Proof.
  assert (C : forall c eol c1 l, (forall b, In b c -> ~ eol_byte b) -> eol_byte eol ->
    p_hexcm c1 (c ++ eol :: l) = p_hex c1 l).
  { induction c as [|b c IH]; intros eol c1 l H He.
    - simpl. rewrite (proj2 (eol_spec _) He). reflexivity.
    - simpl. rewrite (eol_false b) by (apply H; left; auto). apply IH; auto. intros; apply H; right; auto. }
  induction 1 as [|b g Hb Hg IH|c eol g Hc He Hg IH]; intros c1 l; [reflexivity| |].
  - simpl app. rewrite p_hex_cons, (ws_not_comment b Hb), (proj2 (is_ws_spec b) Hb). apply IH.
  - simpl app. rewrite <- app_assoc. rewrite p_hex_cons. change (beq "%"%byte "%"%byte) with true. cbv iota.
    simpl app. rewrite C by auto. apply IH.
Qed.
Lemma p_hex_blank : forall t c1, blank t -> p_hex c1 t = ((hex_fin c1, []), [UnclosedHexString]).
Proof.
  assert (C : forall c c1, (forall b, In b c -> ~ eol_byte b) -> p_hexcm c1 c = ((hex_fin c1, []), [UnclosedHexString])).
  { induction c as [|b c IH]; intros c1 H; [reflexivity|].
    simpl. rewrite (eol_false b) by (apply H; left; auto). apply IH. intros; apply H; right; auto. }
  intros t c1 [g Hg|g c Hg Hc].
  - rewrite <- (app_nil_r g). rewrite p_hex_gap by auto. reflexivity.
  - rewrite p_hex_gap by auto. rewrite p_hex_cons. change (beq "%"%byte "%"%byte) with true. cbv iota. apply C; auto.
Qed.

Lemma hex_in_p : forall t ds ms r, hex_in t ds ms r ->
  (forall v, hex_pairs ds v -> p_hex None t = ((v, r), ms)) /\
  (forall a x v, hexdigit a x -> hex_pairs (x :: ds) v -> p_hex (Some a) t = ((v, r), ms)).
Proof.
  assert (F : forall a x v, hexdigit a x -> hex_pairs [x] v -> hex_fin (Some a) = v).
  { intros a x v Ha Hv. inversion Hv; subst. simpl. f_equal. eapply hex2_value; eauto; [|rewrite Nat.add_0_r; eauto].
    apply hexdigit_spec. split; reflexivity. }
  induction 1 as [t Ht|g r Hg|g b y t ds ms r Hg Hb Ht IH|g b t ds ms r Hg N1 N2 N3 N4 Ht IH].
  - split.
    + intros v Hv. inversion Hv; subst. apply p_hex_blank; auto.
    + intros a x v Ha Hv. rewrite p_hex_blank by auto. rewrite (F _ _ _ Ha Hv). reflexivity.
  - split.
    + intros v Hv. inversion Hv; subst. rewrite p_hex_gap by auto. reflexivity.
    + intros a x v Ha Hv. rewrite p_hex_gap by auto. rewrite <- (F _ _ _ Ha Hv). reflexivity.
  - pose proof (proj1 (hexdigit_spec _ _) Hb) as [H1 _]. destruct (hex_not_special _ H1) as (E1 & E2 & E3). split.
    + intros v Hv. rewrite p_hex_gap, p_hex_cons, E1, E2, E3, H1 by auto. simpl negb. cbv iota.
      apply (proj2 IH b y); auto.
    + intros a x v Ha Hv. rewrite p_hex_gap, p_hex_cons, E1, E2, E3, H1 by auto. simpl negb. cbv iota.
      inversion Hv as [| |x' y' w ds' v' Hw Hv']; subst. rewrite (proj1 IH _ Hv'). rewrite (hex2_value _ _ _ _ _ Ha Hb Hw).
      reflexivity.
  - apply beq_neq in N3, N4. pose proof (is_ws_false _ N2) as E2. pose proof (no_hexdigit _ N1) as E1. split.
    + intros v Hv. rewrite p_hex_gap, p_hex_cons, N3, E2, N4, E1 by auto. simpl negb. cbv iota.
      rewrite (proj1 IH _ Hv). reflexivity.
    + intros a x v Ha Hv. rewrite p_hex_gap, p_hex_cons, N3, E2, N4, E1 by auto. simpl negb. cbv iota.
      rewrite (proj2 IH _ _ _ Ha Hv). reflexivity.
Qed.

Lemma hex_in_total : forall t, exists ds ms r, hex_in t ds ms r /\ forall d, In d ds -> (d < 16)%nat.
Proof.
  induction t as [t IH] using len_ind. destruct (p_ws t) as [|b u] eqn:E.
  - do 3 eexists. split; [apply hi_end, blank_spec, E|]. intros d [].
  - destruct (p_ws_gap _ _ _ E) as (g & Hg & ->).
    assert (N1 : b <> "%"%byte /\ ~ ws_byte b).
    { rewrite gap_ws_app in E by auto. split.
      - intros ->. simpl in E. pose proof (proj2 (p_ws_len u)) as L. rewrite E in L. simpl in L. lia.
      - intros W. simpl in E. rewrite (ws_not_comment _ W), (proj2 (is_ws_spec _) W) in E.
        pose proof (proj1 (p_ws_len u)) as L. rewrite E in L. simpl in L. lia. }
    destruct N1 as [N1 N2].
    destruct (Byte.byte_eq_dec b ">"%byte) as [->|N3].
    { do 3 eexists. split; [apply hi_close; auto|]. intros d []. }
    destruct (IH u) as (ds & ms & r & S & D); [rewrite app_length; simpl; lia|].
    destruct (hexdigit_dec b) as [(x & Hx)|Nx].
    + do 3 eexists. split; [eapply hi_digit; eauto|]. intros d [<-|H]; auto. eapply hexdigit_lt; eauto.
    + do 3 eexists. split; [eapply hi_skip; eauto|]. exact D.
Qed.
Lemma hex_pairs_total : forall ds, (forall d, In d ds -> (d < 16)%nat) -> exists v, hex_pairs ds v.
Proof.
  assert (K : forall n ds, (List.length ds < n)%nat -> (forall d, In d ds -> (d < 16)%nat) -> exists v, hex_pairs ds v).
  { induction n as [|n IH]; intros ds L D; [lia|]. destruct ds as [|x [|y ds]].
    - eexists; constructor.
    - destruct (byte_of (16 * x)) as (w & Hw). { specialize (D x (or_introl eq_refl)). lia. }
      eexists; constructor; eauto.
    - destruct (byte_of (16 * x + y)) as (w & Hw).
      { pose proof (D x (or_introl eq_refl)). pose proof (D y (or_intror (or_introl eq_refl))). lia. }
      destruct (IH ds) as (v & Hv); [simpl in L; lia|intros; apply D; right; right; auto|].
      eexists; econstructor; eauto. }
  intros ds D. eapply K; eauto.
Qed.

(** ** Numbers *)
Definition number_value (t : bytes) : num := fst (p_number t).

Lemma digit_in : forall b, In b (lit "0123456789") <-> is_digit b = true.
Proof.
  intros b. split.
  - intros H. simpl in H. repeat destruct H as [<-|H]; try reflexivity. contradiction.
  - destruct b; intros H; try discriminate; vm_compute; tauto.
Qed.

Lemma number_in_p : forall t tok r, number_in t tok r -> p_number t = (number_value tok, r).
Proof.
  intros t tok r (-> & H & HR). unfold number_value.
  assert (ND : no_digit r).
  { destruct r as [|b r]; simpl; auto. destruct (HR b r eq_refl) as [N _].
    destruct (is_digit b) eqn:E; auto. exfalso. apply N, digit_in, E. }
  destruct H as [sign a frac da Hs Ha Hf Hn].
  assert (HB : exists v, (forall l, no_digit l -> (no_point l \/ frac <> []) ->
             p_num_body num_zero false (a ++ frac ++ l) = (v, l)) /\
             (a = [] -> frac <> [] -> forall l, no_digit l -> p_num_body num_zero true (tl frac ++ l) = (v, l))).
  { destruct Hf as [->|(f & df & Hd & ->)].
    - exists (fold_left (fun v d => num_push v (Z.of_nat d)) da num_zero). split; [|congruence].
      intros l H1 H2. unfold p_num_body. simpl app.
      rewrite (p_num_int_text _ _ Ha) by auto. destruct H2 as [H2|]; [|congruence]. rewrite p_num_int_stop by auto. reflexivity.
    - destruct (p_num_real_text _ _ Hd 1 (fold_left (fun v d => num_push v (Z.of_nat d)) da num_zero) [] I) as (w & _ & Hw).
      exists w. split.
      + intros l H1 _. unfold p_num_body. rewrite (p_num_int_text _ _ Ha) by reflexivity. simpl. apply Hw; auto.
      + intros -> _ l H1. inversion Ha; subst. simpl. unfold p_num_body. apply Hw; auto. }
  destruct HB as (v & HB & HB0).
  assert (PR : no_point r \/ frac <> []).
  { destruct frac; [|right; discriminate]. left. destruct r as [|b r]; simpl; auto.
    destruct (beq b "."%byte) eqn:E; auto. apply beq_eq in E. destruct (HR b r eq_refl) as [_ K]. exfalso.
    specialize (K E). rewrite app_nil_r in K. apply in_app_iff in K. destruct K as [K|K].
    - destruct Hs as [->|[->| ->]]; simpl in K; try tauto; destruct K as [K|[]]; discriminate.
    - clear - Ha K. induction Ha as [|b d t ds Hb Ht IH]; [destruct K|]. destruct K as [K|K]; auto.
      subst b. apply decdigit_spec in Hb. destruct Hb as [Hb _]. discriminate. }
  assert (PN : no_point ([] : bytes) \/ frac <> []) by (left; exact I).
  assert (DN : no_digit ([] : bytes)) by exact I.
  pose proof (HB r ND PR) as B1. pose proof (HB [] DN PN) as B2. rewrite app_nil_r in B2.
  destruct Hs as [->|[->| ->]].
  - simpl app in *. rewrite <- app_assoc.
    destruct a as [|b a].
    + destruct frac as [|b f]; [exfalso; apply Hn; reflexivity|].
      destruct Hf as [|(f' & df & Hd & E)]; [discriminate|]. injection E as -> ->.
      simpl app. unfold p_number. rewrite !p_ws_id by reflexivity.
      change (beq "."%byte "-"%byte) with false. change (is_digit "."%byte) with false. change (beq "."%byte "."%byte) with true.
      cbv iota. assert (N : "."%byte :: f' <> []) by discriminate.
      pose proof (HB0 eq_refl N r ND) as C1. pose proof (HB0 eq_refl N [] DN) as C2. simpl tl in C1, C2.
      rewrite app_nil_r in C2. rewrite C1, C2. reflexivity.
    + inversion Ha as [|b' d t' ds' Hb Ht E1 E2]; subst. apply decdigit_spec in Hb. destruct Hb as [Hb _].
      simpl app in *. rewrite !plain_first by auto. rewrite B1, B2. reflexivity.
  - simpl app in *. unfold p_number. rewrite !p_ws_id by reflexivity.
    change (beq "+"%byte "-"%byte) with false. change (is_digit "+"%byte) with false. change (beq "+"%byte "."%byte) with false.
    change (beq "+"%byte "+"%byte) with true. cbv iota. rewrite <- app_assoc, B1, B2. reflexivity.
  - simpl app in *. unfold p_number. rewrite !p_ws_id by reflexivity.
    change (beq "-"%byte "-"%byte) with true. cbv iota. rewrite <- app_assoc, B1, B2. reflexivity.
Qed.

Lemma number_in_total : forall b t, numfirst b = true -> exists tok r, number_in (b :: t) tok r.
Proof.
  intros b t H.
  assert (S : exists sign u, b :: t = sign ++ u /\ (sign = [] \/ sign = ["+"%byte] \/ sign = ["-"%byte]) /\
    (sign = [] -> is_digit b = true \/ b = "."%byte)).
  { unfold numfirst in H. destruct (beq b "+"%byte) eqn:E1.
    { apply beq_eq in E1. subst b. exists ["+"%byte], t. split; auto. split; auto. discriminate. }
    destruct (beq b "-"%byte) eqn:E2.
    { apply beq_eq in E2. subst b. exists ["-"%byte], t. split; auto. split; auto. discriminate. }
    exists [], (b :: t). split; auto. split; auto. intros _. rewrite !orb_false_r in H. apply orb_true_iff in H.
    destruct H as [H|H]; auto. right. apply beq_eq; auto. }
  destruct S as (sign & u & E & Hs & Hb). rewrite E.
  destruct (digits_split u) as (a & r & -> & Ha & Hr). destruct (dec_digits_exist _ Ha) as (da & Da).
  assert (NP : forall c r', r = c :: r' -> ~ In c (lit "0123456789")).
  { intros c r' -> K. apply digit_in in K. simpl in Hr. congruence. }
  destruct r as [|c r].
  - exists (sign ++ a ++ []), []. split; [rewrite !app_nil_r; reflexivity|]. split; [|discriminate].
    econstructor; eauto. intros Z. rewrite app_nil_r in Z. rewrite app_nil_r, Z in E. discriminate.
  - destruct (Byte.byte_eq_dec c "."%byte) as [->|N].
    + destruct (digits_split r) as (f & r' & -> & Hf & Hr'). destruct (dec_digits_exist _ Hf) as (df & Df).
      exists (sign ++ a ++ "."%byte :: f), r'. split; [rewrite <- !app_assoc; reflexivity|]. split.
      * econstructor; eauto. destruct sign, a; discriminate.
      * intros c r'' ->. split; [intros K; apply digit_in in K; simpl in Hr'; congruence|].
        intros _. apply in_app_iff. right. apply in_app_iff. right. left. reflexivity.
    + exists (sign ++ a ++ []), (c :: r). split; [rewrite app_nil_r, <- app_assoc; reflexivity|]. split.
      * econstructor; eauto. intros Z. rewrite app_nil_r in Z. apply app_eq_nil in Z. destruct Z as [-> ->].
        simpl in E. injection E as -> ->. destruct (Hb eq_refl) as [K|K]; [|contradiction].
        simpl in Hr. congruence.
      * intros c' r'' E'. injection E' as <- <-. split; [eapply NP; eauto|contradiction].
Qed.

(** ** Dictionaries *)
Lemma assigned_keys : forall kvs d, assigned kvs d -> NoDup (map fst d).
Proof.
  induction 1 as [|kvs d k v H IH N|kvs a k w b v H IH N]; [constructor| |].
  - rewrite map_app. simpl. apply NoDup_Add with (a := k) (l := map fst d).
    + rewrite <- (app_nil_r (map fst d)) at 1. apply Add_app.
    + auto.
  - rewrite map_app in *. simpl in *. exact IH.
Qed.
Lemma dset_at : forall k v w a b, ~ In k (map fst a) -> dset k v (a ++ (k, w) :: b) = a ++ (k, v) :: b.
Proof.
  intros k v w a b. unfold dset. induction a as [|[k' v'] a IH]; intros N; simpl in *.
  - rewrite bseq_refl. reflexivity.
  - destruct (bseq k k') eqn:E; [apply bseq_eq in E; subst; tauto|]. rewrite IH by tauto. reflexivity.
Qed.
Lemma assigned_sets : forall kvs d, assigned kvs d <-> d = sets kvs [].
Proof.
  intros kvs d. split.
  - induction 1 as [|kvs d k v H IH N|kvs a k w b v H IH N]; [reflexivity| |]; rewrite sets_app, <- IH.
    + simpl. unfold sets. simpl. symmetry. apply dset_new; auto.
    + unfold sets. simpl. symmetry. apply dset_at; auto.
  - intros ->. induction kvs as [|[k v] kvs IH] using rev_ind; [constructor|].
    rewrite sets_app. change (sets [(k, v)] (sets kvs [])) with (dset k v (sets kvs [])).
    destruct (in_dec (list_eq_dec Byte.byte_eq_dec) k (map fst (sets kvs []))) as [H|H].
    + assert (X : exists a w b, sets kvs [] = a ++ (k, w) :: b /\ ~ In k (map fst a)).
      { clear IH. induction (sets kvs []) as [|[k' v'] d IH]; [destruct H|].
        destruct (list_eq_dec Byte.byte_eq_dec k k') as [->|N].
        - exists [], v', d. split; auto.
        - destruct H as [H|H]; [simpl in H; congruence|]. destruct (IH H) as (a & w & b & -> & Na).
          exists ((k', v') :: a), w, b. split; auto. simpl. intros [K|K]; [congruence|auto]. }
      destruct X as (a & w & b & E & N). rewrite E, dset_at by auto. rewrite E in IH. eapply as_again; eauto.
    + rewrite dset_new by auto. apply as_new; auto.
Qed.

(** ** Objects *)
Notation gscan := (scan number_value).
Notation garray := (array_in number_value).
Notation gdict := (dict_in number_value).

Definition item_res (x : item) : obj * oerr := (item_value x, item_error x).

Lemma counts_value : forall x o, counts_as x o -> item_value x = o.
Proof. destruct 1; reflexivity. Qed.
Lemma mark_error : forall x o, counts_as x o ->
  (x <> IMark MArray -> item_error x <> EReadError /\ item_error x <> EEndOfArray) /\
  (x <> IMark MDict -> item_error x <> EReadError /\ item_error x <> EEndOfDictionary).
Proof. destruct 1 as [o|[]]; simpl; split; intros; split; congruence. Qed.

Lemma scan_p :
  (forall t x ms r, gscan t x ms r -> P0 t = Ok (item_res x, (r, ms))) /\
  (forall t l ms r, garray t l ms r -> forall acc, P_array no_decryptor acc t = Ok (acc ++ l, (r, ms))) /\
  (forall t kvs ms r, gdict t kvs ms r -> forall acc, P_dict no_decryptor acc t = Ok (sets kvs acc, (r, ms))).
Proof.
  apply scan_all_ind.
  - intros t H. rewrite (P_object_eq _ no_decent). apply blank_spec in H. rewrite H. reflexivity.
  - intros g t v ms r Hg Hn. rewrite P0_gap by auto. rewrite P0_name, (name_in_p _ _ _ _ Hn). reflexivity.
  - intros g t v ms r Hg Hn. rewrite P0_gap by auto. rewrite P0_str. change 1 with (Z.of_nat 0 + 1).
    rewrite (str_in_p _ _ _ _ _ Hn). reflexivity.
  - intros g t ds v ms r Hg Ht Hh Hv. rewrite P0_gap by auto. rewrite P0_hex by auto.
    rewrite (proj1 (hex_in_p _ _ _ _ Hh) _ Hv). reflexivity.
  - intros g t tok r Hg Hn Hr. rewrite P0_gap by auto. pose proof (number_in_p _ _ _ Hn) as E.
    destruct Hn as (-> & Ht & _). apply P_number; auto; [apply number_text_first; auto|]. apply ref_tail_spec; auto.
  - intros g t tok r n r' Hg Hn Hr. rewrite P0_gap by auto. pose proof (number_in_p _ _ _ Hn) as E.
    destruct Hn as (-> & Ht & _). apply (P_ref _ _ r); auto. apply number_text_first; auto.
  - intros g t r Hg Ht Hr. rewrite P0_gap by auto. apply P_kw; auto.
  - intros g m r Hg Hm. rewrite P0_gap by auto. rewrite (P_object_eq _ no_decent).
    destruct m; simpl mark_text; simpl app; rewrite p_ws_id by reflexivity; try reflexivity.
    destruct r as [|b r]; [reflexivity|]. specialize (Hm eq_refl).
    assert (N : beq b ">"%byte = false). { apply beq_neq. intros ->. apply (Hm r). reflexivity. }
    change (beq ">"%byte "/"%byte) with false. change (beq ">"%byte "["%byte) with false.
    change (beq ">"%byte "]"%byte) with false. change (beq ">"%byte "("%byte) with false.
    change (beq ">"%byte ")"%byte) with false. change (beq ">"%byte "<"%byte) with false. cbv iota.
    change (firstn 2 (">"%byte :: b :: r)) with [">"%byte; b].
    change (bseq [">"%byte; b] (lit "<<")) with false. cbv iota.
    replace (bseq [">"%byte; b] (lit ">>")) with false; [reflexivity|]. simpl. rewrite N. reflexivity.
  - intros g t l ms r Hg _ IH. rewrite P0_gap by auto. rewrite (P_object_eq _ no_decent).
    rewrite p_ws_id by reflexivity. change (beq "["%byte "/"%byte) with false. change (beq "["%byte "["%byte) with true.
    cbv iota. rewrite IH. reflexivity.
  - intros g t kvs d ms r Hg _ IH Hd. rewrite P0_gap by auto. rewrite (P_object_eq _ no_decent).
    rewrite p_ws_id by reflexivity. apply assigned_sets in Hd. subst d.
    change (beq "<"%byte "/"%byte) with false. change (beq "<"%byte "["%byte) with false.
    change (beq "<"%byte "]"%byte) with false. change (beq "<"%byte "("%byte) with false.
    change (beq "<"%byte ")"%byte) with false. cbv iota.
    change (bseq (firstn 2 ("<"%byte :: "<"%byte :: t)) (lit "<<")) with true. cbv iota. simpl tl. rewrite IH. reflexivity.
  - intros t ms r _ IH acc. rewrite (P_array_eq _ no_decent), IH, app_nil_r. reflexivity.
  - intros t ms r _ IH acc. rewrite (P_array_eq _ no_decent), IH, app_nil_r. reflexivity.
  - intros t x o ms u l ms' r _ IH Hc Nx _ IHa acc. rewrite (P_array_eq _ no_decent), IH. unfold item_res. cbn [rbind].
    destruct (proj1 (mark_error _ _ Hc) Nx) as [N1 N2]. rewrite (counts_value _ _ Hc).
    destruct (item_error x); try congruence; rewrite IHa, <- app_assoc; reflexivity.
  - intros t ms r _ IH acc. rewrite (P_dict_eq _ no_decent), IH. reflexivity.
  - intros t ms r _ IH acc. rewrite (P_dict_eq _ no_decent), IH. reflexivity.
  - intros t x o ms u kvs ms' r _ IH Hc Nx No _ IHd acc. rewrite (P_dict_eq _ no_decent), IH. unfold item_res. cbn [rbind].
    destruct (proj2 (mark_error _ _ Hc) Nx) as [N1 N2]. rewrite (counts_value _ _ Hc).
    assert (E : pthen (ms ++ [InvalidDictionaryKeyType]) (P_dict no_decryptor acc u) (fun x => x) =
      Ok (sets kvs acc, (r, ms ++ InvalidDictionaryKeyType :: ms'))).
    { rewrite IHd. unfold pthen. simpl. rewrite <- app_assoc. reflexivity. }
    destruct (item_error x); try congruence; destruct o; try (exfalso; eapply No; reflexivity); exact E.
  - intros t k ms u x ms' r _ IH _ IH2 Hx acc. rewrite (P_dict_eq _ no_decent), IH. unfold item_res. cbn [rbind item_value item_error].
    rewrite IH2. unfold item_res. cbn [rbind]. destruct Hx as [->| ->]; simpl; rewrite <- app_assoc; reflexivity.
  - intros t k ms u x o ms' w kvs ms'' r _ IH _ IH2 Hc Nx _ IHd acc. rewrite (P_dict_eq _ no_decent), IH.
    unfold item_res. cbn [rbind item_value item_error]. rewrite IH2. unfold item_res. cbn [rbind].
    destruct (proj2 (mark_error _ _ Hc) Nx) as [N1 N2]. rewrite (counts_value _ _ Hc).
    assert (E : pthen (ms ++ ms') (P_dict no_decryptor (dset k o acc) w) (fun x => x) =
      Ok (sets ((k, o) :: kvs) acc, (r, ms ++ ms' ++ ms''))).
    { rewrite IHd. unfold pthen. simpl. rewrite <- app_assoc. reflexivity. }
    destruct (item_error x); try congruence; exact E.
Qed.

Lemma scan_shorter : forall t x ms r, gscan t x ms r ->
  x = INone \/ (x <> INone /\ (List.length r < List.length t)%nat).
Proof.
  intros t x ms r H. pose proof (P_finish _ no_decent t) as F. rewrite (proj1 scan_p _ _ _ _ H) in F.
  simpl in F. destruct x as [o|[]|]; simpl in F; auto; right; split; auto; discriminate.
Qed.

Lemma counts_dec : forall x, x = INone \/ exists o, counts_as x o.
Proof. intros [o|m|]; [right; eexists; constructor|right; eexists; constructor|auto]. Qed.
Lemma mark_dec : forall x m, x = IMark m \/ x <> IMark m.
Proof. intros [o|m'|] m; try (right; discriminate). destruct m, m'; auto; right; discriminate. Qed.
Lemma name_dec : forall o, (exists k, o = OName k) \/ (forall k, o <> OName k).
Proof. intros []; try (right; discriminate). left; eauto. Qed.

Section Totality.
  Variable N : nat.
  Hypothesis IH : forall t : bytes, (List.length t < N)%nat -> exists x ms r, gscan t x ms r.

  Lemma array_total : forall t : bytes, (List.length t < N)%nat -> exists l ms r, garray t l ms r.
  Proof.
    induction t as [t IHt] using len_ind. intros L. destruct (IH t L) as (x & ms & r & S).
    destruct (counts_dec x) as [->|(o & C)]; [do 3 eexists; eapply ai_end; eauto|].
    destruct (mark_dec x MArray) as [->|Nm]; [do 3 eexists; eapply ai_close; eauto|].
    destruct (scan_shorter _ _ _ _ S) as [->|(_ & Hr)]; [inversion C|].
    destruct (IHt r Hr) as (l & ms' & r' & A); [lia|]. do 3 eexists. eapply ai_more; eauto.
  Qed.
  Lemma dict_total : forall t : bytes, (List.length t < N)%nat -> exists kvs ms r, gdict t kvs ms r.
  Proof.
    induction t as [t IHt] using len_ind. intros L. destruct (IH t L) as (x & ms & r & S).
    destruct (counts_dec x) as [->|(o & C)]; [do 3 eexists; eapply di_end; eauto|].
    destruct (mark_dec x MDict) as [->|Nm]; [do 3 eexists; eapply di_close; eauto|].
    destruct (scan_shorter _ _ _ _ S) as [->|(_ & Hr)]; [inversion C|].
    destruct (name_dec o) as [(k & ->)|No].
    - inversion C; subst. destruct (IH r) as (y & ms' & r' & S'); [lia|].
      destruct (counts_dec y) as [->|(v & Cv)]; [do 3 eexists; eapply di_no_value; eauto|].
      destruct (mark_dec y MDict) as [->|Nm']; [do 3 eexists; eapply di_no_value; eauto|].
      destruct (scan_shorter _ _ _ _ S') as [->|(_ & Hr')]; [inversion Cv|].
      destruct (IHt r') as (kvs & ms'' & r'' & D); [lia|lia|]. do 3 eexists. eapply di_pair; eauto.
    - destruct (IHt r Hr) as (kvs & ms' & r' & D); [lia|]. do 3 eexists. eapply di_bad_key; eauto.
  Qed.
End Totality.

Lemma not_numfirst : forall b, numfirst b = false -> ~ In b (lit "0123456789+-.").
Proof. intros b H K. simpl in K. repeat destruct K as [<-|K]; try discriminate H. exact K. Qed.

Lemma scan_total : forall t, exists x ms r, gscan t x ms r.
Proof.
  induction t as [t IH] using len_ind. destruct (p_ws t) as [|b u] eqn:E.
  { do 3 eexists. apply sc_none, blank_spec, E. }
  destruct (p_ws_gap _ _ _ E) as (g & Hg & ->).
  assert (L : (List.length u < List.length (g ++ b :: u))%nat) by (rewrite app_length; simpl; lia).
  assert (NW : b <> "%"%byte /\ ~ ws_byte b).
  { rewrite gap_ws_app in E by auto. split.
    - intros ->. simpl in E. pose proof (proj2 (p_ws_len u)) as L'. rewrite E in L'. simpl in L'. lia.
    - intros W. simpl in E. rewrite (ws_not_comment _ W), (proj2 (is_ws_spec _) W) in E.
      pose proof (proj1 (p_ws_len u)) as L'. rewrite E in L'. simpl in L'. lia. }
  destruct NW as [N1 N2].
  destruct (is_delim b) eqn:D.
  - apply is_delim_spec in D. simpl in D.
    destruct D as [<-|[<-|[<-|[<-|[<-|[<-|[<-|[<-|[]]]]]]]]]; try congruence.
    + destruct (str_in_total u 0) as (v & ms & r & S). do 3 eexists. eapply sc_str; eauto.
    + do 3 eexists. apply (sc_mark _ g MString u); auto. discriminate.
    + destruct u as [|c u'].
      { destruct (hex_in_total []) as (ds & ms & r & S & Hd). destruct (hex_pairs_total _ Hd) as (v & Hv).
        do 3 eexists. eapply sc_hex; eauto. discriminate. }
      destruct (Byte.byte_eq_dec c "<"%byte) as [->|N].
      * destruct (dict_total _ IH u') as (kvs & ms & r & S); [rewrite app_length; simpl; lia|].
        do 3 eexists. eapply sc_dict; eauto. apply assigned_sets. reflexivity.
      * destruct (hex_in_total (c :: u')) as (ds & ms & r & S & Hd). destruct (hex_pairs_total _ Hd) as (v & Hv).
        do 3 eexists. eapply sc_hex; eauto. intros w K. injection K as K _. contradiction.
    + destruct u as [|c u'].
      { do 3 eexists. apply (sc_mark _ g MHex []); auto. intros _ w. discriminate. }
      destruct (Byte.byte_eq_dec c ">"%byte) as [->|N].
      * do 3 eexists. apply (sc_mark _ g MDict u'); auto. discriminate.
      * do 3 eexists. apply (sc_mark _ g MHex (c :: u')); auto. intros _ w K. injection K as K _. contradiction.
    + destruct (array_total _ IH u) as (l & ms & r & S); [lia|]. do 3 eexists. eapply sc_array; eauto.
    + do 3 eexists. apply (sc_mark _ g MArray u); auto. discriminate.
    + destruct (name_in_total u) as (v & ms & r & S). do 3 eexists. eapply sc_name; eauto.
    + exfalso. apply N1. reflexivity.
  - destruct (numfirst b) eqn:NF.
    + destruct (number_in_total b u NF) as (tok & r & S).
      assert (RT : (exists n r', ref_tail r n r') \/ forall n r', ~ ref_tail r n r').
      { destruct (snd (fst (p_int r))) eqn:P1.
        - destruct (list_eq_dec Byte.byte_eq_dec (fst (p_keyword (snd (p_int r)))) (lit "R")) as [K|K].
          + left. destruct (p_int r) as [[z ok] r2] eqn:PI. simpl in P1. subst ok. simpl in K.
            destruct (p_int_inv _ _ _ PI) as (g1 & a & n & Hg1 & Ha & -> & _ & _).
            destruct (p_keyword_R _ K) as (g2 & Hg2 & E2 & He). rewrite E2.
            do 2 eexists. econstructor; eauto.
          + right. apply ref_tail_spec. right. exact K.
        - right. apply ref_tail_spec. left. exact P1. }
      destruct RT as [(n & r' & RT)|RT]; do 3 eexists; [eapply sc_ref|eapply sc_num]; eauto.
    + destruct (p_kw_inv (b :: u)) as (r & E1 & E2 & He & Hr).
      assert (W : is_ws b = false) by (apply is_ws_false; auto).
      assert (F : exists k, fst (p_kw (b :: u)) = b :: k).
      { simpl. rewrite W, D. simpl. destruct (p_kw u) as [k r0]. simpl. eauto. }
      destruct F as (k & F). rewrite F in E1, Hr. rewrite E1. do 3 eexists. apply (sc_kw _ g (b :: k) r); auto.
      exists b, k. split; auto. split; auto. apply not_numfirst; auto.
Qed.

Lemma number_value_int : forall t z, int_text t z -> - 2 ^ 53 <= z <= 2 ^ 53 ->
  num_int (number_value t) = z /\ float_is (number_value t) z.
Proof.
  intros t z H B. destruct (int_text_p t z [] H B) as (v & E & F & I & _); [left; auto|].
  unfold number_value. rewrite app_nil_r in E. rewrite E. simpl. auto.
Qed.

Lemma scan_read : forall file dec f s x ms r, wf file s -> (forall v, dec v = Ok (f v)) -> gscan (rest s) x ms r ->
  exists s', ReadObject file dec s = Ok ((map_strings f (item_value x), item_error x), s') /\ moved file s s' r ms.
Proof.
  intros file dec f s x ms r W Hf Sc. pose proof (ReadObject_plain file dec s W) as S.
  rewrite (P_object_map dec f Hf), (proj1 scan_p _ _ _ _ Sc) in S. simpl in S. destruct S as (s' & H1 & H2).
  exists s'. split; auto. apply St_moved; auto.
Qed.

Lemma scan_unique : forall t x ms r x' ms' r', gscan t x ms r -> gscan t x' ms' r' ->
  x = x' /\ ms = ms' /\ r = r'.
Proof.
  intros t x ms r x' ms' r' H H'. apply (proj1 scan_p) in H. apply (proj1 scan_p) in H'. rewrite H in H'.
  injection H' as E1 E2 -> ->. split; [|auto].
  destruct x as [o|[]|], x' as [o'|[]|]; simpl in *; try discriminate; congruence.
Qed.

Lemma scan_canonical : forall g t o r, gap g -> obj_text t o -> may_follow o r -> gscan (g ++ t ++ r) (IObj o) [] r.
Proof.
  intros g t o r Hg Ht Hr. destruct (scan_total (g ++ t ++ r)) as (x & ms & u & Sc).
  pose proof (proj1 scan_p _ _ _ _ Sc) as P. rewrite P0_gap in P by auto. rewrite (obj_text_reads _ _ _ Ht Hr) in P.
  injection P as E1 E2 E3 E4. subst.
  destruct x as [o'|[]|]; simpl in *; try discriminate. subst. exact Sc.
Qed.

(** ** The theorem *)
Lemma every_text : exists value,
  (forall t z, int_text t z -> - 2 ^ 53 <= z <= 2 ^ 53 -> num_int (value t) = z /\ float_is (value t) z) /\
  (forall g t o r, gap g -> obj_text t o -> may_follow o r -> scan value (g ++ t ++ r) (IObj o) [] r) /\
  (forall t, exists x ms r, scan value t x ms r) /\
  (forall t x ms r x' ms' r', scan value t x ms r -> scan value t x' ms' r' -> x = x' /\ ms = ms' /\ r = r') /\
  (forall file dec f s x ms r, wf file s -> (forall v, dec v = Ok (f v)) -> scan value (rest s) x ms r ->
     exists s', ReadObject file dec s = Ok ((map_strings f (item_value x), item_error x), s') /\ moved file s s' r ms).
Proof.
  exists number_value. split; [exact number_value_int|]. split; [exact scan_canonical|]. split; [exact scan_total|].
  split; [exact scan_unique|exact scan_read].
Qed.
