(** SpecObjP.v -- the plain reader reads object texts of SpecObj.v as the trees
    they denote. *)
From Verif Require Import Base BaseP Msg Num NumP Reader Lexer Obj ReadObj Plain LexerP ReadObjP PObjP
  SpecLex SpecLexP SpecObj SpecNumP.
From Coq Require Import Strings.String.

Lemma no_decent : decent no_decryptor.
Proof. intros v. discriminate. Qed.
Lemma no_calm : calm no_decryptor.
Proof. intros v. discriminate. Qed.

(** classification of first bytes *)
Definition numfirst (b : byte) : bool := is_digit b || beq b "+"%byte || beq b "-"%byte || beq b "."%byte.

(** the reader without decryption *)
Notation P0 := (P_object no_decryptor).

Lemma P_number : forall t v l, (exists b r, t = b :: r /\ numfirst b = true) ->
  p_number (t ++ l) = (v, l) -> no_ref l -> P0 (t ++ l) = Ok ((ONum v, ENone), (l, [])).
Proof.
  intros t v l (b & r & -> & HF) HP HR. rewrite (P_object_eq _ no_decent).
  change ((b :: r) ++ l) with (b :: (r ++ l)) in *.
  assert (B : beq b "%"%byte = false /\ is_ws b = false /\ beq b "/"%byte = false /\ beq b "["%byte = false /\
              beq b "]"%byte = false /\ beq b "("%byte = false /\ beq b ")"%byte = false /\
              beq b "<"%byte = false /\ beq b ">"%byte = false).
  { revert HF. destruct b; intros HF; try discriminate; repeat split; reflexivity. }
  destruct B as (B1 & B2 & B3 & B4 & B5 & B6 & B7 & B8 & B9).
  rewrite p_ws_id by auto. rewrite B3, B4, B5, B6, B7, B8, B9.
  assert (N1 : forall x, bseq (firstn 2 (b :: r ++ l)) ("<"%byte :: x) = false).
  { intros x. cbn [firstn bseq]. rewrite B8. reflexivity. }
  assert (N2 : forall x, bseq (firstn 2 (b :: r ++ l)) (">"%byte :: x) = false).
  { intros x. cbn [firstn bseq]. rewrite B9. reflexivity. }
  change (lit "<<") with ["<"%byte; "<"%byte]. change (lit ">>") with [">"%byte; ">"%byte].
  rewrite N1, N2. unfold numfirst in HF. rewrite HF. unfold p_num_or_ref. rewrite HP.
  unfold no_ref in HR. destruct (p_int l) as [[g ok] r2]. simpl in HR.
  destruct ok; [|reflexivity]. destruct (p_keyword r2) as [kw r3]. simpl in HR.
  destruct (bseq kw (lit "R")) eqn:E; [|reflexivity].
  apply bseq_eq in E. destruct HR; [discriminate|congruence].
Qed.

Lemma P_ref : forall t v l g r, (exists b r, t = b :: r /\ numfirst b = true) ->
  p_number (t ++ l) = (v, l) -> ref_tail l g r -> P0 (t ++ l) = Ok ((ORef (num_int v) (wrap64 g), ENone), (r, [])).
Proof.
  intros t v l g rr (b & r & -> & HF) HP HR. rewrite (P_object_eq _ no_decent).
  change ((b :: r) ++ l) with (b :: (r ++ l)) in *.
  assert (B : beq b "%"%byte = false /\ is_ws b = false /\ beq b "/"%byte = false /\ beq b "["%byte = false /\
              beq b "]"%byte = false /\ beq b "("%byte = false /\ beq b ")"%byte = false /\
              beq b "<"%byte = false /\ beq b ">"%byte = false).
  { revert HF. destruct b; intros HF; try discriminate; repeat split; reflexivity. }
  destruct B as (B1 & B2 & B3 & B4 & B5 & B6 & B7 & B8 & B9).
  rewrite p_ws_id by auto. rewrite B3, B4, B5, B6, B7, B8, B9.
  assert (N1 : forall x, bseq (firstn 2 (b :: r ++ l)) ("<"%byte :: x) = false).
  { intros x. cbn [firstn bseq]. rewrite B8. reflexivity. }
  assert (N2 : forall x, bseq (firstn 2 (b :: r ++ l)) (">"%byte :: x) = false).
  { intros x. cbn [firstn bseq]. rewrite B9. reflexivity. }
  change (lit "<<") with ["<"%byte; "<"%byte]. change (lit ">>") with [">"%byte; ">"%byte].
  rewrite N1, N2. unfold numfirst in HF. rewrite HF. unfold p_num_or_ref. rewrite HP.
  destruct HR as [g1 t n g2 r' Hg1 Ht Hg2 He].
  rewrite (p_int_text g1 t n); auto.
  2:{ apply gap_no_digit; auto. reflexivity. }
  unfold p_keyword. rewrite gap_ws_app by auto. rewrite p_ws_id by reflexivity.
  change ("R"%byte :: r') with (lit "R" ++ r'). rewrite (kw_text_p (lit "R") r'); auto.
  intros c [<-|[]]. apply R_regular.
Qed.

Lemma P_kw : forall t l, kw_text t -> ends_token l -> P0 (t ++ l) = Ok ((OKw t, ENone), (l, [])).
Proof.
  intros t l (b & r & -> & HR & HN) He. rewrite (P_object_eq _ no_decent).
  change ((b :: r) ++ l) with (b :: (r ++ l)) in *.
  destruct (HR b (or_introl eq_refl)) as [R1 R2].
  assert (D : forall c, In c (lit "()<>[]/%") -> beq b c = false).
  { intros c Hc. apply beq_neq. intros ->. apply R2. exact Hc. }
  assert (N : is_digit b || beq b "+"%byte || beq b "-"%byte || beq b "."%byte = false).
  { destruct (is_digit b || beq b "+"%byte || beq b "-"%byte || beq b "."%byte) eqn:E; auto.
    exfalso. apply HN. revert E. destruct b; intros E; try discriminate; vm_compute; tauto. }
  rewrite p_ws_id; [|apply D; vm_compute; tauto|apply is_ws_false; auto].
  rewrite !D by (vm_compute; tauto).
  assert (N1 : forall x, bseq (firstn 2 (b :: r ++ l)) ("<"%byte :: x) = false).
  { intros x. cbn [firstn bseq]. rewrite D by (vm_compute; tauto). reflexivity. }
  assert (N2 : forall x, bseq (firstn 2 (b :: r ++ l)) (">"%byte :: x) = false).
  { intros x. cbn [firstn bseq]. rewrite D by (vm_compute; tauto). reflexivity. }
  change (lit "<<") with ["<"%byte; "<"%byte]. change (lit ">>") with [">"%byte; ">"%byte].
  rewrite N1, N2, N. change (b :: r ++ l) with ((b :: r) ++ l). rewrite kw_text_p; auto.
Qed.

(** what the first bytes of the texts look like *)
Inductive first_kind : bytes -> obj -> Prop :=
| fk_num : forall b r o, numfirst b = true -> first_kind (b :: r) o
| fk_delim : forall b r o, is_delim b = true -> beq b "%"%byte = false -> first_kind (b :: r) o
| fk_kw : forall t, kw_text t -> t <> lit "R" -> first_kind t (OKw t).

Lemma nat_text_numfirst : forall t n, nat_text t n -> exists b r, t = b :: r /\ numfirst b = true.
Proof.
  intros t n H. destruct (nat_text_cons _ _ H) as (b & d & r & ds & -> & Hb & _).
  exists b, r. split; auto. apply decdigit_spec in Hb. unfold numfirst. destruct Hb as [-> _]. reflexivity.
Qed.
Lemma int_text_numfirst : forall t z, int_text t z -> exists b r, t = b :: r /\ numfirst b = true.
Proof.
  intros t z H. apply int_text_number in H. apply number_text_first in H. exact H.
Qed.

Lemma obj_text_first : forall t o, obj_text t o -> first_kind t o.
Proof.
  intros t o H. destruct H.
  - destruct (int_text_numfirst _ _ H) as (b & r & -> & HF). apply fk_num; auto.
  - apply fk_delim; reflexivity.
  - apply fk_delim; reflexivity.
  - apply fk_delim; reflexivity.
  - apply fk_kw; auto.
  - destruct (nat_text_numfirst _ _ H) as (x & r & -> & HF). simpl. apply fk_num; auto.
  - apply fk_delim; reflexivity.
  - apply fk_delim; reflexivity.
Qed.

Lemma first_kind_start : forall t o, first_kind t o -> exists b r, t = b :: r /\ beq b "%"%byte = false /\ is_ws b = false.
Proof.
  intros t o [b r o' H|b r o' H H2|t' (b & r & -> & HR & _) _].
  - exists b, r. split; auto. revert H. destruct b; intros H; try discriminate; split; reflexivity.
  - exists b, r. split; auto. split; auto. revert H. destruct b; intros H; try discriminate; reflexivity.
  - exists b, r. split; auto. destruct (HR b (or_introl eq_refl)) as [R1 R2]. split.
    + apply beq_neq. intros ->. apply R2. vm_compute. tauto.
    + apply is_ws_false; auto.
Qed.

(** what follows a sequence of items: the end or a delimiter *)
Definition closer (c : bytes) : Prop :=
  c = [] \/ exists b r, c = b :: r /\ is_delim b = true /\ beq b "%"%byte = false.

Lemma delim_facts : forall b, is_delim b = true -> is_ws b = false /\ is_digit b = false.
Proof. intros b. destruct b; intros H; try discriminate; split; reflexivity. Qed.

Lemma closer_ends : forall c, closer c -> ends_token c.
Proof.
  intros c [->|(b & r & -> & H)]; [left; auto|]. right. exists b, r. split; auto. right.
  apply is_delim_spec. tauto.
Qed.
Lemma ends_token_app : forall r c, ends_token r -> closer c -> ends_token (r ++ c).
Proof.
  intros r c [->|(b & r' & -> & H)] Hc; [apply closer_ends; auto|].
  right. exists b, (r' ++ c). auto.
Qed.

(** no keyword R can be read at the start of the rest of a sequence *)
Lemma items_no_R : forall r l c, items r l -> closer c -> fst (p_keyword (r ++ c)) <> lit "R".
Proof.
  intros r l c H Hc. unfold p_keyword. destruct H as [g Hg|g t o r l Hg Ht Hr Hs].
  - rewrite gap_ws_app by auto. destruct Hc as [->|(b & r & -> & D & P)]; [discriminate|].
    rewrite p_ws_id by (auto; apply delim_facts; auto). simpl. rewrite D, orb_true_r. discriminate.
  - rewrite <- app_assoc. rewrite gap_ws_app by auto.
    pose proof (obj_text_first _ _ Ht) as FK.
    destruct (first_kind_start _ _ FK) as (b0 & r0 & E0 & E1 & E2).
    rewrite E0. rewrite <- !app_assoc. change ((b0 :: r0) ++ r ++ c) with (b0 :: (r0 ++ r ++ c)).
    rewrite p_ws_id by auto.
    destruct FK as [b rr o HF|b rr o HD HP|t HK HN].
    + injection E0 as -> ->. simpl. destruct (is_ws b0 || is_delim b0); [discriminate|].
      destruct (p_kw (r0 ++ r ++ c)). simpl. intros E. injection E as -> _. discriminate.
    + injection E0 as -> ->. simpl. rewrite HD. rewrite orb_true_r. discriminate.
    + change (b0 :: (r0 ++ r ++ c)) with ((b0 :: r0) ++ (r ++ c)). rewrite <- E0.
      destruct HK as (b & r' & -> & HR & _). rewrite kw_text_p; auto.
      apply ends_token_app; auto. destruct Hs as [[]|Hs]; auto.
Qed.

(** ... and no reference tail *)
Lemma items_no_ref : forall r l c, items r l -> closer c -> no_ref (r ++ c).
Proof.
  intros r l c H Hc. unfold no_ref. destruct H as [g Hg|g t o r l Hg Ht Hr Hs].
  - left. unfold p_int. rewrite gap_ws_app by auto.
    destruct Hc as [->|(b & r & -> & D & P)]; [reflexivity|].
    rewrite p_ws_id by (auto; apply delim_facts; auto). destruct (delim_facts _ D) as [_ ->]. reflexivity.
  - destruct (first_kind_start _ _ (obj_text_first _ _ Ht)) as (b0 & r0 & E0 & E1 & E2).
    rewrite <- !app_assoc.
    destruct (is_digit b0) eqn:D.
    2:{ left. unfold p_int. rewrite gap_ws_app by auto. rewrite E0.
        change ((b0 :: r0) ++ r ++ c) with (b0 :: (r0 ++ r ++ c)). rewrite p_ws_id by auto.
        rewrite D. reflexivity. }
    right.
    assert (NB : forall b r, b :: r = t -> is_digit b = true) by congruence.
    destruct Ht as [t z Hz HB H0|t v Hv|t ds v Hd Hv|t v Hv|t HK HN|a n g1 b gg g2 Ha Hn Hg1 Hg1' Hb Hgg Hg2 Hg2'|t l' Hl|t kvs Hk Hnd];
      try (exfalso; specialize (NB _ _ eq_refl); discriminate).
    + assert (N : nat_text t z).
      { destruct Hz as [t n Hz|t n Hz|t n Hz]; auto; specialize (NB _ _ eq_refl); discriminate. }
      destruct Hs as [[]|Hs].
      rewrite (p_int_text g t z (r ++ c)); auto.
      * simpl. eapply items_no_R; eauto.
      * apply ends_number_spec. apply ends_token_number. apply ends_token_app; auto.
    + exfalso. destruct HK as (b & r' & -> & HR & HN'). specialize (NB _ _ eq_refl).
      apply HN'. revert NB. destruct b; intros X; try discriminate; vm_compute; tauto.
    + rewrite <- !app_assoc. rewrite (p_int_text g a n); auto.
      * simpl. unfold p_keyword. rewrite gap_ws_app by auto.
        destruct (nat_text_cons _ _ Hb) as (x & d & r' & ds & -> & Hx & _).
        apply decdigit_spec in Hx. destruct Hx as [Hx _]. destruct (digit_not_ws _ Hx) as [W1 W2].
        change ((x :: r') ++ g2 ++ "R"%byte :: r ++ c) with (x :: (r' ++ g2 ++ "R"%byte :: r ++ c)).
        rewrite p_ws_id by auto. simpl. rewrite W2. simpl orb. destruct (is_delim x); [discriminate|].
        destruct (p_kw (r' ++ g2 ++ "R"%byte :: r ++ c)). simpl. intros E. injection E as -> _. discriminate.
      * destruct Hg1 as [|x g' Hx Hg'|cc eol g' Hcc Heol Hg']; [congruence| |reflexivity].
        simpl. destruct (is_digit x) eqn:DX; auto. destruct (digit_not_ws _ DX) as [_ W].
        apply is_ws_spec in Hx. congruence.
Qed.

(** ** The main lemma *)

(** building a dictionary from distinct keys appends *)
Lemma dset_new : forall k v d, ~ In k (map fst d) -> dset k v d = d ++ [(k, v)].
Proof.
  intros k v. induction d as [|[k' v'] d IH]; intros H; [reflexivity|].
  unfold dset in *. simpl in *. destruct (bseq k k') eqn:E.
  - apply bseq_eq in E. subst. tauto.
  - rewrite IH; tauto.
Qed.

Definition follow (o : obj) (l : bytes) : Prop :=
  self_delimited o \/ (ends_token l /\ match o with ONum _ => no_ref l | _ => True end).

Lemma may_follow_spec : forall o l, may_follow o l -> follow o l.
Proof.
  intros o l H. unfold follow. destruct o; simpl in *; auto.
  right. destruct H as [H1 H2]. split; auto. apply ref_tail_spec. exact H2.
Qed.

(** reading the elements of a sequence one by one *)
Definition reads (t : bytes) (o : obj) : Prop :=
  forall l, follow o l -> P0 (t ++ l) = Ok ((o, ENone), (l, [])).

Inductive read_items : bytes -> list obj -> Prop :=
| ri_nil : forall g, gap g -> read_items g []
| ri_cons : forall g t o r l, gap g -> obj_text t o -> reads t o -> items r l -> read_items r l ->
    self_delimited o \/ ends_token r -> read_items (g ++ t ++ r) (o :: l).

Lemma P0_gap : forall g l, gap g -> P0 (g ++ l) = P0 l.
Proof.
  intros g l H. rewrite !(P_object_eq _ no_decent). rewrite gap_ws_app by auto. reflexivity.
Qed.

Lemma items_follow : forall o r l c, items r l -> closer c -> self_delimited o \/ ends_token r -> follow o (r ++ c).
Proof.
  intros o r l c Hr Hc [H|H]; [left; auto|]. right. split; [apply ends_token_app; auto|].
  destruct o; auto. eapply items_no_ref; eauto.
Qed.

Lemma read_items_array : forall t l, read_items t l -> forall acc c, closer c ->
  P_array no_decryptor acc (t ++ c) = P_array no_decryptor (acc ++ l) c.
Proof.
  induction 1 as [g Hg|g t o r l Hg Ht HR Hi Hr IH Hs]; intros acc c Hc.
  - rewrite app_nil_r. rewrite !(P_array_eq _ no_decent). rewrite P0_gap; auto.
  - rewrite (P_array_eq _ no_decent). rewrite <- !app_assoc. rewrite P0_gap by auto.
    rewrite HR by (eapply items_follow; eauto). cbn [rbind]. unfold pthen.
    rewrite IH by auto. rewrite <- app_assoc. simpl app.
    destruct (P_array no_decryptor (acc ++ o :: l) c) as [[a [r' ms]]| |]; reflexivity.
Qed.

(** dictionaries: pairs of a name and a value *)
Lemma read_items_dict : forall kvs t tl, read_items t (flatten kvs ++ tl) -> forall acc c, closer c ->
  (match kvs with [] => False | _ => True end -> tl = [] \/ exists k, tl = [OName k]) ->
  NoDup (map fst (acc ++ kvs)) ->
  exists t', read_items t' tl /\
  P_dict no_decryptor acc (t ++ c) = P_dict no_decryptor (acc ++ kvs) (t' ++ c).
Proof.
  induction kvs as [|[k v] kvs IH]; intros t tl0 H acc c Hc HT ND.
  - exists t. simpl in *. rewrite app_nil_r. auto.
  - simpl in H. inversion H as [|g t1 o r l Hg Ht HR Hi Hr Hs]; subst.
    inversion Hr as [|g' t2 o' r' l' Hg' Ht' HR' Hi' Hr' Hs']; subst.
    assert (NN : forall k, ~ In k (map fst acc) -> dset k v acc = acc ++ [(k, v)]) by (intros; apply dset_new; auto).
    destruct (IH r' tl0 Hr' (acc ++ [(k, v)]) c Hc) as (t' & T1 & T2).
    { intros _. apply HT. exact I. }
    { rewrite <- app_assoc. exact ND. }
    exists t'. split; auto.
    rewrite (P_dict_eq _ no_decent). rewrite <- !app_assoc. rewrite P0_gap by auto.
    rewrite HR. 2:{ rewrite app_assoc. rewrite app_assoc. rewrite <- (app_assoc g').
                    eapply items_follow; eauto. }
    cbn [rbind]. rewrite P0_gap by auto. rewrite HR' by (eapply items_follow; eauto).
    cbn [rbind]. rewrite NN.
    2:{ rewrite map_app in ND. simpl in ND. apply NoDup_remove_2 in ND. intros X. apply ND. apply in_or_app; auto. }
    rewrite T2. rewrite <- app_assoc. simpl app. unfold pthen.
    destruct (P_dict no_decryptor (acc ++ (k, v) :: kvs) (t' ++ c)) as [[a [r2 ms]]| |]; reflexivity.
Qed.

Lemma P0_close_arr : forall l, P0 ("]"%byte :: l) = Ok ((KEYWORD_NULL, EEndOfArray), (l, [])).
Proof. intros l. rewrite (P_object_eq _ no_decent). reflexivity. Qed.
Lemma P0_close_dict : forall l, P0 (">"%byte :: ">"%byte :: l) = Ok ((KEYWORD_NULL, EEndOfDictionary), (l, [])).
Proof. intros l. rewrite (P_object_eq _ no_decent). reflexivity. Qed.
Lemma P0_nil : P0 [] = Ok ((KEYWORD_NULL, EReadError), ([], [])).
Proof. reflexivity. Qed.

Lemma P0_open_arr : forall l, P0 ("["%byte :: l) = pthen [] (P_array no_decryptor [] l) (fun x => (OArr x, ENone)).
Proof. intros l. rewrite (P_object_eq _ no_decent). reflexivity. Qed.
Lemma P0_open_dict : forall l, P0 ("<"%byte :: "<"%byte :: l) = pthen [] (P_dict no_decryptor [] l) (fun x => (ODict x, ENone)).
Proof. intros l. rewrite (P_object_eq _ no_decent). reflexivity. Qed.

Theorem obj_items_read :
  (forall t o, obj_text t o -> reads t o) /\ (forall t l, items t l -> read_items t l).
Proof.
  apply obj_items_ind.
  - (* integers *)
    intros t z Hz HB H0 l [[]|[He HR]].
    destruct (int_text_p t z l Hz HB (ends_token_number _ He)) as (v & E & _ & _ & U).
    rewrite <- U.
    2:{ destruct (Z.eq_dec z 0) as [Q|Q]; auto. }
    apply P_number; auto. eapply int_text_numfirst; eauto.
  - (* literal strings *)
    intros t v Hv l _. rewrite (P_object_eq _ no_decent). simpl app. rewrite <- app_assoc. simpl app.
    change (p_ws ("("%byte :: t ++ ")"%byte :: l)) with ("("%byte :: t ++ ")"%byte :: l). cbv iota.
    change (beq "("%byte "/"%byte) with false. change (beq "("%byte "["%byte) with false.
    change (beq "("%byte "]"%byte) with false. change (beq "("%byte "("%byte) with true. cbv iota.
    rewrite (str_text_p _ _ _ _ Hv). reflexivity.
  - (* hexadecimal strings *)
    intros t ds v Hd Hv l _. rewrite (P_object_eq _ no_decent). simpl app. rewrite <- app_assoc. simpl app.
    change (p_ws ("<"%byte :: t ++ ">"%byte :: l)) with ("<"%byte :: t ++ ">"%byte :: l). cbv iota.
    change (beq "<"%byte "/"%byte) with false. change (beq "<"%byte "["%byte) with false.
    change (beq "<"%byte "]"%byte) with false. change (beq "<"%byte "("%byte) with false.
    change (beq "<"%byte ")"%byte) with false. cbv iota.
    assert (N1 : bseq (firstn 2 ("<"%byte :: t ++ ">"%byte :: l)) (lit "<<") = false).
    { inversion Hd as [|b t' ds' k Hb Ht|b t' ds' k Nh Nw Nc Ng Ht|b d t' ds' k Hb Ht]; subst; try reflexivity.
      - simpl. destruct (beq b "<"%byte) eqn:E; auto. apply beq_eq in E; subst b.
        apply is_ws_spec in Hb. discriminate.
      - simpl. destruct (beq b "<"%byte) eqn:E; auto. apply beq_eq in E; subst b.
        apply hexdigit_spec in Hb. destruct Hb; discriminate. }
    assert (N2 : bseq (firstn 2 ("<"%byte :: t ++ ">"%byte :: l)) (lit ">>") = false) by reflexivity.
    rewrite N1, N2. change (beq "<"%byte "<"%byte) with true. cbv iota.
    rewrite (hex_text_p _ _ _ _ _ Hd Hv). reflexivity.
  - (* names *)
    intros t v Hv l [[]|[He _]]. rewrite (P_object_eq _ no_decent). simpl app.
    change (p_ws ("/"%byte :: t ++ l)) with ("/"%byte :: t ++ l). cbv iota.
    change (beq "/"%byte "/"%byte) with true. cbv iota. rewrite (name_text_p _ _ _ _ Hv He). reflexivity.
  - (* keywords *)
    intros t HK HN l [[]|[He _]]. apply P_kw; auto.
  - (* references *)
    intros a n g1 b g g2 Ha Hn Hg1 Hg1' Hb Hg Hg2 Hg2' l [[]|[He _]].
    rewrite <- !app_assoc.
    assert (ND : ends_number (g1 ++ b ++ g2 ++ lit "R" ++ l)).
    { destruct Hg1 as [|x g' Hx Hg'|cc eol g' Hcc Heol Hg']; [congruence| |].
      - right. simpl. eexists _, _. split; [reflexivity|].
        intros K. apply is_ws_spec in Hx. simpl in K. repeat destruct K as [<-|K]; try discriminate Hx; exact K.
      - right. simpl. eexists _, _. split; [reflexivity|]. vm_compute.
        intros K. repeat destruct K as [K|K]; try discriminate K; exact K. }
    pose proof (nat_text_nonneg _ _ Ha). pose proof (nat_text_nonneg _ _ Hb).
    destruct (int_text_p a n (g1 ++ b ++ g2 ++ lit "R" ++ l) (it_plain _ _ Ha)) as (v & E & _ & V & _); [lia|auto|].
    rewrite <- V. assert (W : wrap64 g = g) by (apply wrap64_small; unfold two63; lia).
    rewrite <- W. apply P_ref; auto.
    + eapply nat_text_numfirst; eauto.
    + apply (rt_intro g1 b g g2 l); auto.
  - (* arrays *)
    intros t l Hi IH r _. simpl app. rewrite <- app_assoc. rewrite P0_open_arr.
    rewrite (read_items_array _ _ IH) by (right; exists "]"%byte, r; auto).
    rewrite (P_array_eq _ no_decent). simpl app. rewrite P0_close_arr. reflexivity.
  - (* dictionaries *)
    intros t kvs Hi IH ND r _. simpl app. rewrite <- app_assoc. simpl app. rewrite P0_open_dict.
    rewrite <- (app_nil_r (flatten kvs)) in IH.
    destruct (read_items_dict kvs t [] IH [] (">"%byte :: ">"%byte :: r)) as (t' & T1 & T2); auto.
    { right. eexists _, _. split; [reflexivity|]. auto. }
    rewrite T2. inversion T1; subst. rewrite (P_dict_eq _ no_decent). rewrite P0_gap by auto.
    rewrite P0_close_dict. reflexivity.
  - intros g Hg. constructor; auto.
  - intros g t o r l Hg Ht IHt Hr IHr Hs. apply ri_cons; auto.
Qed.

Lemma obj_text_reads : forall t o l, obj_text t o -> may_follow o l -> P0 (t ++ l) = Ok ((o, ENone), (l, [])).
Proof. intros t o l H F. apply obj_items_read; auto. apply may_follow_spec; auto. Qed.

(** ** Every writable tree has a text *)
Lemma nat_text_exists : forall n, 0 <= n -> exists t, nat_text t n.
Proof.
  assert (K : forall k n, 0 <= n < 10 ^ Z.of_nat k -> exists t ds, dec_digits t ds /\ dec_value ds = n).
  { induction k as [|k IH]; intros n H.
    - exists [], []. split; [constructor|]. simpl in H. unfold dec_value. simpl. lia.
    - rewrite Nat2Z.inj_succ, Z.pow_succ_r in H by lia.
      destruct (IH (n / 10)) as (t & ds & Hd & Hv). { Z.div_mod_to_equations. lia. }
      assert (D : exists b, decdigit b (Z.to_nat (n mod 10))).
      { unfold decdigit, digit. destruct (nth_error (lit "0123456789") (Z.to_nat (n mod 10))) eqn:E; eauto.
        apply nth_error_None in E. simpl in E. pose proof (Z.mod_pos_bound n 10). lia. }
      destruct D as (b & Hb).
      exists (t ++ [b]), (ds ++ [Z.to_nat (n mod 10)]). split.
      + clear - Hd Hb. induction Hd; simpl; constructor; auto. constructor.
      + unfold dec_value in *. rewrite fold_left_app, Hv. cbn [fold_left].
        pose proof (Z.mod_pos_bound n 10). rewrite Z2Nat.id by lia. pose proof (Z.div_mod n 10). lia. }
  intros n H. destruct (Z.eq_dec n 0) as [->|N].
  - exists ["0"%byte]. exists [0%nat]. split; [|split; [discriminate|reflexivity]].
    constructor; [reflexivity|constructor].
  - destruct (K (S (Z.to_nat n)) n) as (t & ds & Hd & Hv).
    + split; auto. rewrite Nat2Z.inj_succ, Z2Nat.id by auto.
      apply Z.lt_trans with (10 ^ n); [apply Z.pow_gt_lin_r; lia|apply Z.pow_lt_mono_r; lia].
    + exists t, ds. split; auto. split; auto. intros ->. unfold dec_value in Hv. simpl in Hv. lia.
Qed.

Lemma gap_space : gap [x20].
Proof. apply gap_ws; [vm_compute; tauto|constructor]. Qed.

Section ObjInd.
  Variable P : obj -> Prop.
  Hypothesis HN : forall v, P (ONum v).
  Hypothesis HS : forall v, P (OStr v).
  Hypothesis HM : forall v, P (OName v).
  Hypothesis HK : forall v, P (OKw v).
  Hypothesis HR : forall n g, P (ORef n g).
  Hypothesis HA : forall l, Forall P l -> P (OArr l).
  Hypothesis HD : forall d, Forall (fun kv => P (snd kv)) d -> P (ODict d).
  (** induction over object trees *)
  Fixpoint obj_rec (o : obj) : P o :=
    match o with
    | ONum v => HN v | OStr v => HS v | OName v => HM v | OKw v => HK v | ORef n g => HR n g
    | OArr l => HA l ((fix f (l : list obj) : Forall P l :=
        match l with [] => Forall_nil _ | x :: r => Forall_cons x (obj_rec x) (f r) end) l)
    | ODict d => HD d ((fix f (d : list (bytes * obj)) : Forall (fun kv => P (snd kv)) d :=
        match d with [] => Forall_nil _ | kv :: r => Forall_cons kv (obj_rec (snd kv)) (f r) end) d)
    end.
End ObjInd.

Lemma obj_text_exists : forall o, writable o -> exists t, obj_text t o.
Proof.
  apply (obj_rec (fun o => writable o -> exists t, obj_text t o)).
  - intros v (z & Hz & ->). destruct (Z_lt_le_dec z 0).
    + destruct (nat_text_exists (- z)) as (t & Ht); [lia|]. exists ("-"%byte :: t).
      apply ot_int; auto; [|lia]. replace z with (- (- z)) by lia. apply it_minus. auto.
    + destruct (nat_text_exists z) as (t & Ht); [lia|]. exists t.
      apply ot_int; auto; [apply it_plain; auto|]. intros ->. auto.
  - intros v _. destruct (str_writable v) as (t & Ht). eexists. apply ot_str; eauto.
  - intros v _. destruct (name_writable v) as (t & Ht). eexists. apply ot_name; eauto.
  - intros v [H1 H2]. exists v. apply ot_kw; auto.
  - intros n g [H1 H2]. destruct (nat_text_exists n) as (a & Ha); [lia|].
    destruct (nat_text_exists g) as (b & Hb); [lia|].
    exists (a ++ [x20] ++ b ++ [x20] ++ lit "R").
    apply ot_ref; auto; try lia; try apply gap_space; discriminate.
  - intros l IH H. enough (exists t, items t l /\ ends_token t) as (t & Ht & _) by (eexists; apply ot_arr; eauto).
    induction IH as [|o l Ho Hl IHl].
    + exists []. split; [constructor; constructor|left; auto].
    + simpl in H. destruct H as [H1 H2]. destruct (Ho H1) as (t & Ht). destruct (IHl H2) as (r & Hr & He).
      exists ([x20] ++ t ++ r). split.
      * apply it_cons; auto. apply gap_space.
      * right. eexists _, _. split; [reflexivity|]. left. vm_compute. tauto.
  - intros d IH [ND H]. enough (exists t, items t (flatten d) /\ ends_token t) as (t & Ht & _) by (eexists; apply ot_dict; eauto).
    clear ND. induction IH as [|[k o] l Ho Hl IHl].
    + exists []. split; [constructor; constructor|left; auto].
    + simpl in *. destruct H as [H1 H2]. destruct (Ho H1) as (t & Ht). destruct (IHl H2) as (r & Hr & He).
      destruct (name_writable k) as (u & Hu).
      exists ([x20] ++ ("/"%byte :: u) ++ ([x20] ++ t ++ r)). split.
      * apply it_cons.
        -- apply gap_space.
        -- apply ot_name; auto.
        -- apply it_cons; auto. apply gap_space.
        -- right. right. eexists _, _. split; [reflexivity|]. left. vm_compute. tauto.
      * right. eexists _, _. split; [reflexivity|]. left. vm_compute. tauto.
Qed.

(** ** Truncated containers *)
Definition cut_msg (c : cut) : msg :=
  match c with CutArray => UnclosedArray | CutDict => UnclosedDictionary | CutValue => MissingDictionaryValue end.

Lemma cut_text_closer : forall t o cs, cut_text t o cs -> closer t.
Proof. intros t o cs H. right. destruct H; eexists _, _; (split; [reflexivity|]); split; reflexivity. Qed.

Lemma cut_text_reads : forall t o cs, cut_text t o cs -> P0 t = Ok ((o, ENone), ([], map cut_msg cs)).
Proof.
  induction 1 as [t l Hi|t l u o cs Hi Hc IH|t kvs Hi ND|t kvs k Hi ND|t kvs k u o cs Hi ND Hc IH].
  - apply obj_items_read in Hi. rewrite P0_open_arr.
    rewrite <- (app_nil_r t). rewrite (read_items_array _ _ Hi) by (left; auto).
    rewrite (P_array_eq _ no_decent). rewrite P0_nil. reflexivity.
  - apply obj_items_read in Hi. rewrite P0_open_arr.
    rewrite (read_items_array _ _ Hi) by (eapply cut_text_closer; eauto).
    rewrite (P_array_eq _ no_decent). rewrite IH. cbn [rbind].
    rewrite (P_array_eq _ no_decent). rewrite P0_nil. cbn. rewrite map_app. reflexivity.
  - apply obj_items_read in Hi. rewrite P0_open_dict. rewrite <- (app_nil_r (flatten kvs)) in Hi.
    destruct (read_items_dict kvs t [] Hi [] []) as (t' & T1 & T2); auto.
    { left; auto. }
    rewrite app_nil_r in T2. rewrite T2. inversion T1; subst.
    rewrite (P_dict_eq _ no_decent). rewrite P0_gap by auto. rewrite P0_nil. reflexivity.
  - apply obj_items_read in Hi. rewrite P0_open_dict.
    destruct (read_items_dict kvs t [OName k] Hi [] []) as (t' & T1 & T2); auto.
    { left; auto. }
    { intros _. right. eauto. }
    rewrite app_nil_r in T2. rewrite T2.
    inversion T1 as [|g t1 o r l Hg Ht HR Hi' Hr Hs]; subst.
    inversion Hr; subst. rewrite (P_dict_eq _ no_decent). rewrite app_nil_r.
    rewrite P0_gap by auto. rewrite HR.
    2:{ rewrite <- (app_nil_r r). eapply items_follow; eauto. left; auto. }
    cbn [rbind]. rewrite <- (app_nil_r r). rewrite P0_gap by auto. rewrite P0_nil. reflexivity.
  - apply obj_items_read in Hi. rewrite P0_open_dict.
    rewrite map_app in ND. simpl in ND.
    assert (ND1 : NoDup (map fst kvs)) by (apply NoDup_remove_1 in ND; rewrite app_nil_r in ND; auto).
    destruct (read_items_dict kvs t [OName k] Hi [] u) as (t' & T1 & T2); auto.
    { eapply cut_text_closer; eauto. }
    { intros _. right. eauto. }
    rewrite T2.
    inversion T1 as [|g t1 o' r l Hg Ht HR Hi' Hr Hs]; subst.
    inversion Hr; subst. rewrite (P_dict_eq _ no_decent). rewrite <- !app_assoc.
    rewrite P0_gap by auto. rewrite HR.
    2:{ eapply items_follow; eauto. eapply cut_text_closer; eauto. }
    cbn [rbind]. rewrite P0_gap by auto. rewrite IH. cbn [rbind].
    rewrite (P_dict_eq _ no_decent). rewrite P0_nil. cbn. simpl app.
    rewrite dset_new.
    2:{ apply NoDup_remove_2 in ND. rewrite app_nil_r in ND. exact ND. }
    rewrite map_app. reflexivity.
Qed.
