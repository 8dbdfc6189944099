(** WriteP.v -- the text SpecWrite gives for a document (C90, C91). *)
From Verif Require Import Base BaseP Msg Reader Num NumP Obj SpecLex SpecLexP SpecObj SpecObjP SpecStream StreamEx SpecWrite.
From Coq Require Import Strings.String.

(** ** Numbers *)
Lemma dec_digit_ok : forall d, 0 <= d < 10 -> decdigit (dec_digit d) (Z.to_nat d).
Proof.
  intros d H. unfold decdigit, digit, dec_digit. apply nth_error_nth'. change (List.length (lit "0123456789")) with 10%nat. lia.
Qed.
Lemma dec_digits_snoc : forall t ds b d, dec_digits t ds -> decdigit b d -> dec_digits (t ++ [b]) (ds ++ [d]).
Proof. intros t ds b d H B. induction H; cbn [app]; constructor; auto. constructor. Qed.
Lemma dec_value_snoc : forall ds d, dec_value (ds ++ [d]) = 10 * dec_value ds + Z.of_nat d.
Proof. intros ds d. unfold dec_value. rewrite fold_left_app. reflexivity. Qed.
Lemma dec_pad_ok : forall k n, 0 <= n < 10 ^ Z.of_nat k -> exists ds, dec_digits (dec_pad k n) ds /\ dec_value ds = n.
Proof.
  induction k as [| k IH]; intros n H.
  - exists []. split; [constructor |]. change (10 ^ Z.of_nat 0) with 1 in H. unfold dec_value. cbn. lia.
  - rewrite Nat2Z.inj_succ, Z.pow_succ_r in H by lia. destruct (IH (n / 10)) as (ds & H1 & H2); [Z.div_mod_to_equations; lia |].
    pose proof (Z.mod_pos_bound n 10 ltac:(lia)) as B. exists (ds ++ [Z.to_nat (n mod 10)]). cbn [dec_pad]. split.
    + apply dec_digits_snoc; [exact H1 | apply dec_digit_ok; exact B].
    + rewrite dec_value_snoc, H2, Z2Nat.id by lia. pose proof (Z.div_mod n 10). lia.
Qed.
Lemma dec_pad_len : forall k n, zlen (dec_pad k n) = Z.of_nat k.
Proof. induction k as [| k IH]; intros n; [reflexivity |]. cbn [dec_pad]. rewrite zlen_app, IH. change (zlen [dec_digit (n mod 10)]) with 1. lia. Qed.
Lemma dec_pad_text : forall k n, (0 < k)%nat -> 0 <= n < 10 ^ Z.of_nat k -> nat_text (dec_pad k n) n.
Proof.
  intros k n K H. destruct (dec_pad_ok k n H) as (ds & H1 & H2). exists ds. split; [exact H1 |]. split; [| exact H2].
  intros ->. inversion H1 as [Q |]. pose proof (dec_pad_len k n) as L. rewrite <- Q in L. change (zlen []) with 0 in L. lia.
Qed.
Lemma dec_from_ok : forall f n, 0 <= n < 2 ^ Z.of_nat f -> (0 < f)%nat -> exists ds, dec_digits (dec_from f n) ds /\ dec_value ds = n /\ ds <> [].
Proof.
  induction f as [| f IH]; intros n H F; [lia |]. cbn [dec_from]. pose proof (Z.mod_pos_bound n 10 ltac:(lia)) as B. destruct (Z.ltb_spec n 10) as [L | L].
  - exists [Z.to_nat (n mod 10)]. split; [| split; [| discriminate]].
    + constructor; [apply dec_digit_ok; exact B | constructor].
    + change [Z.to_nat (n mod 10)] with ([] ++ [Z.to_nat (n mod 10)]). rewrite dec_value_snoc, Z2Nat.id by lia. rewrite Z.mod_small by lia. unfold dec_value. cbn. lia.
  - rewrite Nat2Z.inj_succ, Z.pow_succ_r in H by lia. destruct f as [| f]; [change (2 ^ Z.of_nat 0) with 1 in H; lia |].
    destruct (IH (n / 10)) as (ds & H1 & H2 & H3); [Z.div_mod_to_equations; lia | lia |]. exists (ds ++ [Z.to_nat (n mod 10)]). split; [| split].
    + apply dec_digits_snoc; [exact H1 | apply dec_digit_ok; exact B].
    + rewrite dec_value_snoc, H2, Z2Nat.id by lia. pose proof (Z.div_mod n 10). lia.
    + destruct ds; discriminate.
Qed.
Lemma dec_text : forall n, 0 <= n -> nat_text (dec n) n.
Proof.
  intros n H. assert (B : 0 <= n < 2 ^ Z.of_nat (S (Z.to_nat (Z.log2 n)))).
  { split; [exact H |]. rewrite Nat2Z.inj_succ, Z2Nat.id by apply Z.log2_nonneg. destruct (Z.eq_dec n 0) as [-> | N]; [reflexivity |]. apply Z.log2_spec. lia. }
  destruct (dec_from_ok _ n B ltac:(lia)) as (ds & H1 & H2 & H3). exists ds. auto.
Qed.
Lemma nat_text_chars : forall t n, nat_text t n -> forall b, In b t -> In b (lit "0123456789").
Proof.
  intros t n (ds & H & _ & _) b I. induction H as [| c d t ds D H IH]; [destruct I |]. destruct I as [-> | I]; [| exact (IH I)].
  unfold decdigit, digit in D. eapply nth_error_In. exact D.
Qed.
Lemma nat_text_nonnil : forall t n, nat_text t n -> t <> [].
Proof. intros t n (ds & H & N & _) ->. inversion H. subst. contradiction. Qed.

(** ** Strings and names *)
Lemma hex_digit_of_ok : forall d, 0 <= d < 16 -> hexdigit (hex_digit_of d) (Z.to_nat d).
Proof.
  intros d H. left. unfold digit, hex_digit_of. apply nth_error_nth'. change (List.length (lit "0123456789abcdef")) with 16%nat. lia.
Qed.
Lemma hex_high : forall b, 0 <= bv b / 16 < 16.
Proof. intros b. pose proof (bv_range b). Z.div_mod_to_equations. lia. Qed.
Lemma hex_low : forall b, 0 <= bv b mod 16 < 16.
Proof. intros b. apply Z.mod_pos_bound. lia. Qed.
Lemma hex_split : forall b, bv b = Z.of_nat (16 * Z.to_nat (bv b / 16) + Z.to_nat (bv b mod 16)).
Proof. intros b. pose proof (hex_high b). pose proof (hex_low b). rewrite Nat2Z.inj_add, Nat2Z.inj_mul, !Z2Nat.id by lia. change (Z.of_nat 16) with 16. apply Z.div_mod. lia. Qed.
Lemma hex_ok : forall s, exists ds, hex_digits (hex s) ds 0 /\ hex_pairs ds s.
Proof.
  induction s as [| b s (ds & H1 & H2)]; [exists []; split; constructor |].
  exists (Z.to_nat (bv b / 16) :: Z.to_nat (bv b mod 16) :: ds). split.
  - cbn. apply hd_digit; [apply hex_digit_of_ok, hex_high |]. apply hd_digit; [apply hex_digit_of_ok, hex_low | exact H1].
  - apply hp_pair; [apply hex_split | exact H2].
Qed.
Lemma name_char_ok : forall b, name_char b = true -> regular_byte b /\ b <> "#"%byte.
Proof.
  intros b H. unfold name_char in H. apply negb_true_iff in H.
  assert (N : ~ In b ([x00; x09; x0a; x0c; x0d; x20] ++ lit "()<>[]/%#")).
  { intros I. assert (existsb (Byte.eqb b) ([x00; x09; x0a; x0c; x0d; x20] ++ lit "()<>[]/%#") = true); [| congruence].
    apply existsb_exists. exists b. split; [exact I |]. apply Byte.byte_dec_lb. reflexivity. }
  split; [split |].
  - intros W. apply N, in_or_app. left. exact W.
  - intros W. apply N, in_or_app. right. unfold delim_byte in W. change (lit "()<>[]/%#") with (lit "()<>[]/%" ++ lit "#"). apply in_or_app. left. exact W.
  - intros ->. apply N. vm_compute. tauto.
Qed.
Lemma name_char_code : forall b, name_char b = false -> code_count (lit "#()<>[]/%") b 0.
Proof.
  intros b H. apply cc_needed. intros [B N]. unfold name_char in H. apply negb_false_iff in H. apply existsb_exists in H. destruct H as (c & I & Q).
  apply Byte.byte_dec_bl in Q. subst c. apply in_app_or in I. destruct I as [I | I].
  - cbn in I. repeat (destruct I as [<- | I]; [vm_compute in B; destruct B as [B1 B2]; first [apply B1; reflexivity | apply B2; reflexivity] |]). destruct I.
  - apply N. revert I. vm_compute. tauto.
Qed.
Lemma w_name_ok : forall s, name_body (w_name s) s 0.
Proof.
  induction s as [| b s IH]; [constructor |]. unfold w_name. cbn [flat_map]. fold (w_name s). destruct (name_char b) eqn:C.
  - destruct (name_char_ok b C) as [R N]. cbn [app]. apply nb_char; assumption.
  - change 0%nat with (0 + 0)%nat. cbn [app hex_of]. apply nb_escape with (Z.to_nat (bv b / 16)) (Z.to_nat (bv b mod 16)).
    + apply hex_digit_of_ok, hex_high.
    + apply hex_digit_of_ok, hex_low.
    + apply hex_split.
    + apply name_char_code. exact C.
    + exact IH.
Qed.

(** ** Objects *)
Lemma w_int_text : forall z, int_text (w_int z) z /\ (z = 0 -> nat_text (w_int z) 0).
Proof.
  intros z. unfold w_int. destruct (Z.ltb_spec z 0) as [L | L].
  - split; [| lia]. replace z with (- (- z)) at 2 by lia. apply it_minus, dec_text. lia.
  - split; [apply it_plain, dec_text; exact L | intros ->; apply dec_text; lia].
Qed.
Lemma ends_space : forall t, ends_token (x20 :: t).
Proof. intros t. right. exists x20, t. split; [reflexivity | left; vm_compute; tauto]. Qed.
Lemma plain_kw : forall t, plain_words t -> kw_text t /\ t <> lit "R".
Proof.
  intros t H. assert (K : exists b r, t = b :: r /\ forallb (fun c => name_char c) t = true /\ ~ In b (lit "0123456789+-.")).
  { destruct H as [-> | [-> | ->]]; eexists; eexists; (split; [reflexivity |]); (split; [reflexivity |]); vm_compute; intuition discriminate. }
  split; [| destruct H as [-> | [-> | ->]]; discriminate]. destruct K as (b & r & Q & F & N). exists b, r. split; [exact Q |]. split; [| exact N].
  intros c I. rewrite forallb_forall in F. apply name_char_ok, F. exact I.
Qed.
Lemma w_obj_text : forall o, printable o -> obj_text (w_obj o) o.
Proof.
  apply (obj_rec (fun o => printable o -> obj_text (w_obj o) o)).
  - intros v (z & Hz & ->). cbn [w_obj]. rewrite num_int_of_Z by exact Hz. destruct (w_int_text z) as [H1 H2]. apply ot_int; assumption.
  - intros v _. cbn [w_obj]. destruct (hex_ok v) as (ds & H1 & H2). eapply ot_hex; eassumption.
  - intros v _. cbn [w_obj]. apply ot_name, w_name_ok.
  - intros v H. cbn [w_obj]. destruct (plain_kw v H). apply ot_kw; assumption.
  - intros n g [H1 H2]. cbn [w_obj]. change (dec n ++ x20 :: dec g ++ x20 :: lit "R") with (dec n ++ [x20] ++ dec g ++ [x20] ++ lit "R").
    apply ot_ref; try apply gap_space; try discriminate; try (apply dec_text; lia); lia.
  - intros l IH H. cbn [w_obj]. enough (items (flat_map (fun x => x20 :: w_obj x) l) l /\ ends_token (flat_map (fun x => x20 :: w_obj x) l)) as [Q _] by (apply ot_arr; exact Q).
    induction IH as [| o l Ho Hl IHl].
    + split; [constructor; constructor | left; reflexivity].
    + cbn in H. destruct H as [H1 H2]. destruct (IHl H2) as [I1 I2]. cbn [flat_map app]. split; [| apply ends_space].
      change (x20 :: w_obj o ++ flat_map (fun x => x20 :: w_obj x) l) with ([x20] ++ w_obj o ++ flat_map (fun x => x20 :: w_obj x) l).
      apply it_cons; [apply gap_space | exact (Ho H1) | exact I1 | right; exact I2].
  - intros d IH [ND H]. cbn [w_obj]. set (f := fun kv : bytes * obj => x20 :: "/"%byte :: w_name (fst kv) ++ x20 :: w_obj (snd kv)).
    enough (items (flat_map f d) (flatten d) /\ ends_token (flat_map f d)) as [Q _] by (apply ot_dict; assumption).
    clear ND. induction IH as [| [k o] l Ho Hl IHl].
    + split; [constructor; constructor | left; reflexivity].
    + cbn in H. destruct H as (_ & H1 & H2). destruct (IHl H2) as [I1 I2]. cbn [flat_map flatten]. unfold f at 1 3. cbn [fst snd app]. split; [| apply ends_space].
      rewrite <- app_assoc. cbn [app].
      change (x20 :: "/"%byte :: w_name k ++ x20 :: w_obj o ++ flat_map f l) with ([x20] ++ ("/"%byte :: w_name k) ++ ([x20] ++ w_obj o ++ flat_map f l)).
      apply it_cons; [apply gap_space | apply ot_name, w_name_ok | | right; apply ends_space].
      apply it_cons; [apply gap_space | exact (Ho H1) | exact I1 | right; exact I2].
Qed.

(** ** What does not occur in the text *)
(** no "obj" behind white space *)
Definition calm (t : bytes) : Prop := forall u w v, t = u ++ w :: lit "obj" ++ v -> ~ ws_byte w.
Definition quiet (t : bytes) : Prop := ~ In "%"%byte t /\ calm (x20 :: t) /\ ~ occurs (lit "xref") t.
Lemma calm_cons : forall b t, calm (b :: t) -> calm t.
Proof. intros b t H u w v Q. apply (H (b :: u) w v). rewrite Q. reflexivity. Qed.
Lemma calm_join : forall u c v, calm u -> calm (x20 :: v) -> ~ In c (lit "obj") -> calm (u ++ c :: v).
Proof.
  induction u as [| b u IH]; intros c v H1 H2 N x w y Q.
  - destruct x as [| x1 x]; cbn in Q; injection Q as Q1 Q2.
    + subst. exfalso. apply (H2 [] x20 y eq_refl). vm_compute. tauto.
    + subst. apply (H2 (x20 :: x) w y). reflexivity.
  - destruct x as [| x1 x]; cbn in Q; injection Q as Q1 Q2.
    + subst b. intros W. assert (K : exists v', u = lit "obj" ++ v').
      { destruct u as [| b1 u]; cbn in Q2; [exfalso; apply N; injection Q2 as -> _; vm_compute; tauto |]. injection Q2 as -> Q2.
        destruct u as [| b2 u]; cbn in Q2; [exfalso; apply N; injection Q2 as -> _; vm_compute; tauto |]. injection Q2 as -> Q2.
        destruct u as [| b3 u]; cbn in Q2; [exfalso; apply N; injection Q2 as -> _; vm_compute; tauto |]. injection Q2 as -> Q2. exists u. reflexivity. }
      destruct K as [v' ->]. exact (H1 [] w v' eq_refl W).
    + eapply (IH c v (calm_cons _ _ H1) H2 N). exact Q2.
Qed.
Lemma occurs_split : forall m u c v, ~ In c m -> m <> [] -> occurs m (u ++ c :: v) -> occurs m u \/ occurs m v.
Proof.
  intros m u c v N M (a & b & Q). revert a Q. induction u as [| x u IH]; intros a Q.
  - right. destruct a as [| y a]; cbn in Q.
    + destruct m as [| y m]; [contradiction |]. cbn in Q. injection Q as Q1 Q2. exfalso. apply N. left. congruence.
    + injection Q as Q1 Q2. exists a, b. exact Q2.
  - destruct a as [| y a].
    + cbn [app] in Q. assert (K : forall m u, ~ In c m -> u ++ c :: v = m ++ b -> exists b', u = m ++ b').
      { clear. induction m as [| y m IH]; intros u N Q; [exists u; reflexivity |]. destruct u as [| x u]; cbn in Q; injection Q as Q1 Q2; [exfalso; apply N; left; congruence |].
        subst. destruct (IH u) as [b' ->]; [intros I; apply N; right; exact I | exact Q2 |]. exists b'. reflexivity. }
      destruct (K m (x :: u) N Q) as [b' Q']. left. exists [], b'. exact Q'.
    + cbn in Q. injection Q as Q1 Q2. destruct (IH a Q2) as [(a' & b' & H) | H]; [| right; exact H]. left. exists (x :: a'), b'. rewrite H. reflexivity.
Qed.
Lemma occurs_skip : forall m b t x, occurs (x :: m) (b :: t) -> b <> x -> occurs (x :: m) t.
Proof. intros m b t x (a & c & Q) N. destruct a as [| y a]; cbn in Q; injection Q as Q1 Q2; [congruence |]. exists a, c. exact Q2. Qed.
Definition divider (c : byte) : Prop := ~ In c (lit "%objxref").
Lemma quiet_join : forall u c v, quiet u -> quiet v -> divider c -> quiet (u ++ c :: v).
Proof.
  intros u c v (H1 & H2 & H3) (K1 & K2 & K3) N. split; [| split].
  - intros I. apply in_app_or in I. destruct I as [I | [I | I]]; [exact (H1 I) | subst c; apply N; vm_compute; tauto | exact (K1 I)].
  - apply (calm_join (x20 :: u) c v H2 K2). intros I. apply N. right. change (In c (lit "obj" ++ lit "xref")). apply in_or_app. left. exact I.
  - intros O. apply occurs_split in O; [| | discriminate]; [destruct O; contradiction |]. intros I. apply N. right. change (In c (lit "obj" ++ lit "xref")). apply in_or_app. right. exact I.
Qed.
Lemma quiet_nil : quiet [].
Proof. split; [intros [] |]. split; [intros u w v Q; destruct u as [| ? [|]]; discriminate Q |]. intros (a & b & Q). destruct a; discriminate Q. Qed.
Lemma quiet_cons : forall c v, quiet v -> divider c -> quiet (c :: v).
Proof. intros c v H N. apply (quiet_join [] c v quiet_nil H N). Qed.
Lemma quiet_snoc : forall u c, quiet u -> divider c -> quiet (u ++ [c]).
Proof. intros u c H N. apply (quiet_join u c [] H quiet_nil N). Qed.
(** texts without any of the letters *)
Lemma quiet_plain : forall t, (forall b, In b t -> b <> "%"%byte /\ b <> "o"%byte /\ b <> "x"%byte) -> quiet t.
Proof.
  intros t H. split; [intros I; destruct (H _ I) as [N _]; apply N; reflexivity |]. split.
  - intros u w v Q. exfalso. destruct u as [| y u]; cbn in Q; injection Q as Q1 Q2.
    + subst t. destruct (H "o"%byte (or_introl eq_refl)) as (_ & N & _). apply N. reflexivity.
    + assert (I : In "o"%byte t) by (rewrite Q2; apply in_or_app; right; right; left; reflexivity). apply H in I. tauto.
  - intros (a & b & Q). assert (I : In "x"%byte t) by (rewrite Q; apply in_or_app; right; left; reflexivity). apply H in I. tauto.
Qed.
Fixpoint calmb (p : bool) (t : bytes) : bool :=
  match t with [] => true | b :: r => negb (p && Byte.eqb b "o") && calmb (existsb (Byte.eqb b) [x00; x09; x0a; x0c; x0d; x20]) r end.
Lemma calmb_ok : forall t p, calmb p t = true -> calm t.
Proof.
  induction t as [| b t IH]; intros p H u w v Q; [destruct u; discriminate Q |]. cbn [calmb] in H. apply andb_true_iff in H. destruct H as [_ H].
  destruct u as [| y u]; cbn in Q; injection Q as Q1 Q2; [| exact (IH _ H u w v Q2)]. subst b t. cbn [calmb] in H. apply andb_true_iff in H. destruct H as [H _].
  change (Byte.eqb "o" "o") with true in H. rewrite andb_true_r in H. apply negb_true_iff in H. intros W.
  assert (existsb (Byte.eqb w) [x00; x09; x0a; x0c; x0d; x20] = true); [| congruence]. apply existsb_exists. exists w. split; [exact W | apply Byte.byte_dec_lb; reflexivity].
Qed.
Definition quietb (t : bytes) : bool := forallb (fun b => negb (Byte.eqb b "%")) t && calmb true t &&
  forallb (fun k => negb (bseq (firstn 4 (skipn k t)) (lit "xref"))) (seq 0 (S (List.length t))).
Lemma quietb_ok : forall t, quietb t = true -> quiet t.
Proof.
  intros t H. unfold quietb in H. apply andb_true_iff in H. destruct H as [H H3]. apply andb_true_iff in H. destruct H as [H1 H2]. split; [| split].
  - intros I. rewrite forallb_forall in H1. specialize (H1 _ I). discriminate H1.
  - apply (calmb_ok (x20 :: t) false). cbn [calmb]. exact H2.
  - apply occurs_check. exact H3.
Qed.
Ltac quietc := apply quietb_ok; vm_compute; reflexivity.
Ltac div := let H := fresh in intros H; vm_compute in H; intuition discriminate.

Lemma quiet_nat : forall t n, nat_text t n -> quiet t.
Proof.
  intros t n H. apply quiet_plain. intros b I. pose proof (nat_text_chars t n H b I) as D. clear - D. cbn in D.
  repeat (destruct D as [<- | D]; [repeat split; discriminate |]). destruct D.
Qed.
Lemma hex_digit_chars : forall d, 0 <= d < 16 -> In (hex_digit_of d) (lit "0123456789abcdef").
Proof. intros d H. unfold hex_digit_of. apply nth_In. change (List.length (lit "0123456789abcdef")) with 16%nat. lia. Qed.
Lemma hex_of_chars : forall c b, In b (hex_of c) -> In b (lit "0123456789abcdef").
Proof. intros c b [<- | [<- | []]]; apply hex_digit_chars; [apply hex_high | apply hex_low]. Qed.
Lemma hex_chars : forall s b, In b (hex s) -> In b (lit "0123456789abcdef").
Proof. intros s b I. unfold hex in I. apply in_flat_map in I. destruct I as (c & _ & I). exact (hex_of_chars c b I). Qed.
Lemma quiet_hex : forall s, quiet (hex s).
Proof.
  intros s. apply quiet_plain. intros b I. pose proof (hex_chars s b I) as D. clear - D. cbn in D.
  repeat (destruct D as [<- | D]; [repeat split; discriminate |]). destruct D.
Qed.
Lemma w_name_chars : forall s b, In b (w_name s) -> ~ ws_byte b /\ b <> "%"%byte.
Proof.
  intros s b I. unfold w_name in I. apply in_flat_map in I. destruct I as (c & _ & I). destruct (name_char c) eqn:C.
  - destruct I as [<- | []]. destruct (name_char_ok c C) as [[R1 R2] _]. split; [exact R1 |]. intros ->. apply R2. vm_compute. tauto.
  - destruct I as [<- | I]; [split; [vm_compute; intuition discriminate | discriminate] |]. pose proof (hex_of_chars c b I) as D. clear - D. cbn in D.
    repeat (destruct D as [<- | D]; [split; [vm_compute; intuition discriminate | discriminate] |]). destruct D.
Qed.
Lemma w_name_xref : forall s, ~ occurs (lit "xref") s -> ~ occurs (lit "xref") (w_name s).
Proof.
  assert (K : forall s u, forallb name_char u = true -> ~ occurs (lit "xref") (u ++ s) -> ~ occurs (lit "xref") (u ++ w_name s)).
  { induction s as [| b s IH]; intros u U N; [rewrite app_nil_r in *; exact N |].
    unfold w_name. cbn [flat_map]. fold (w_name s). destruct (name_char b) eqn:C.
    - change ([b] ++ w_name s) with (b :: w_name s). replace (u ++ b :: w_name s) with ((u ++ [b]) ++ w_name s) by (rewrite <- app_assoc; reflexivity).
      apply IH; [rewrite forallb_app, U; cbn; rewrite C; reflexivity |]. rewrite <- app_assoc. exact N.
    - cbn [app hex_of]. intros O. apply occurs_split in O; [| vm_compute; intuition discriminate | discriminate]. destruct O as [(a & c & O) | O].
      + apply N. exists a, (c ++ b :: s). rewrite O, <- !app_assoc. reflexivity.
      + apply occurs_skip in O; [apply occurs_skip in O |]; [| |].
        * revert O. apply (IH []); [reflexivity |]. cbn [app]. intros (a & c & O). apply N. exists (u ++ b :: a), c. rewrite O, <- !app_assoc. reflexivity.
        * intros Q. pose proof (hex_digit_chars _ (hex_low b)) as D. rewrite Q in D. vm_compute in D. intuition discriminate.
        * intros Q. pose proof (hex_digit_chars _ (hex_high b)) as D. rewrite Q in D. vm_compute in D. intuition discriminate. }
  intros s N. apply (K s [] eq_refl N).
Qed.
Lemma quiet_name : forall s, ~ occurs (lit "xref") s -> quiet ("/"%byte :: w_name s).
Proof.
  intros s N. split; [| split].
  - intros [Q | I]; [discriminate Q | apply w_name_chars in I; tauto].
  - intros u w v Q. assert (K : forall u v, w_name s = u ++ w :: v -> ~ ws_byte w) by (intros u' v' Q'; apply (w_name_chars s); rewrite Q'; apply in_or_app; right; left; reflexivity).
    destruct u as [| a [| b u]]; cbn in Q; [discriminate Q | |].
    + injection Q as <- <- Q. vm_compute. intuition discriminate.
    + injection Q as <- <- Q. exact (K _ _ Q).
  - intros O. apply occurs_skip in O; [| discriminate]. exact (w_name_xref s N O).
Qed.
Lemma quiet_int : forall z, quiet (w_int z).
Proof. intros z. unfold w_int. destruct (Z.ltb_spec z 0); [apply quiet_cons; [| div] |]; eapply quiet_nat; apply dec_text; lia. Qed.
Lemma quiet_obj : forall o, printable o -> quiet (w_obj o).
Proof.
  apply (obj_rec (fun o => printable o -> quiet (w_obj o))).
  - intros v _. apply quiet_int.
  - intros v _. cbn [w_obj]. apply quiet_cons; [| div]. apply quiet_snoc; [apply quiet_hex | div].
  - intros v H. apply quiet_name. exact H.
  - intros v H. cbn [w_obj]. destruct H as [-> | [-> | ->]]; quietc.
  - intros n g [H1 H2]. cbn [w_obj]. apply quiet_join; [eapply quiet_nat, dec_text; lia | | div]. apply quiet_join; [eapply quiet_nat, dec_text; lia | quietc | div].
  - intros l IH H. cbn [w_obj]. apply quiet_cons; [| div]. apply quiet_snoc; [| div]. induction IH as [| o l Ho Hl IHl]; [apply quiet_nil |].
    cbn in H. destruct H as [H1 H2]. specialize (IHl H2). cbn [flat_map app]. destruct l as [| o' l].
    + cbn [flat_map]. rewrite app_nil_r. apply quiet_cons; [exact (Ho H1) | div].
    + apply quiet_cons; [| div]. cbn [flat_map app] in *. apply quiet_join; [exact (Ho H1) | | div].
      destruct IHl as (A & B & C). split; [intros I; apply A; right; exact I |]. split; [exact (calm_cons _ _ B) |]. intros (a & c & Q). apply C. exists (x20 :: a), c. rewrite Q. reflexivity.
  - intros d IH [ND H]. cbn [w_obj]. do 2 (apply quiet_cons; [| div]). set (f := fun kv : bytes * obj => x20 :: "/"%byte :: w_name (fst kv) ++ x20 :: w_obj (snd kv)).
    change [">"%byte; ">"%byte] with ([">"%byte] ++ [">"%byte]). rewrite app_assoc. do 2 (apply quiet_snoc; [| div]). clear ND.
    assert (K : forall v, quiet v -> quiet (flat_map f d ++ x20 :: v)).
    { clear - IH H. induction IH as [| [k o] l Ho Hl IHl]; intros v V; [apply quiet_cons; [exact V | div] |].
      cbn in H. destruct H as (N & H1 & H2). cbn [flat_map]. rewrite <- app_assoc. unfold f at 1. cbn [fst snd app]. apply quiet_cons; [| div]. rewrite <- app_assoc. cbn [app].
      apply (quiet_join ("/"%byte :: w_name k) x20); [apply quiet_name; exact N | | div].
      destruct l as [| kv l]; [cbn [flat_map app]; apply quiet_join; [exact (Ho H1) | exact V | div] |]. specialize (IHl H2 v V).
      cbn [flat_map] in *. rewrite <- app_assoc in *. unfold f at 1 in IHl. unfold f at 1. cbn [app] in *. apply quiet_join; [exact (Ho H1) | | div].
      destruct IHl as (A & B & C). split; [intros I; apply A; right; exact I |]. split; [exact (calm_cons _ _ B) |]. intros (a & c & Q). apply C. exists (x20 :: a), c. rewrite Q. reflexivity. }
    specialize (K [] quiet_nil). destruct K as (A & B & C). split; [intros I; apply A; apply in_or_app; left; exact I |]. split.
    + intros u w v Q. apply (B u w (v ++ [x20])). change (x20 :: flat_map f d ++ [x20]) with ((x20 :: flat_map f d) ++ [x20]). rewrite Q, <- app_assoc. reflexivity.
    + intros (a & c & Q). apply C. exists a, (c ++ [x20]). rewrite Q, <- !app_assoc. reflexivity.
Qed.
