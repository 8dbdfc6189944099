(** ReadObjP.v -- the buffered object reader computes the plain one, and fuel
    above the number of unread bytes always suffices. *)
From Verif Require Import Base BaseP Msg Reader ReaderP Num Lexer Obj ReadObj Plain LexerP.
From Coq Require Import Strings.String.

Section Sim.
  Variable file : bytes.

  (** [m], run on a state whose unread bytes end at [e] with log [lg], does
      what the plain reader result [x] says. *)
  Definition sim {A} (e : Z) (lg : list msg) (m : res (A * rd)) (x : pres A) : Prop :=
    match x with
    | Ok (a, (r, ms)) => exists s', m = Ok (a, s') /\ St file s' r e (lg ++ ms)
    | Panic => m = Panic
    | OutOfFuel => m = OutOfFuel
    end.

  Lemma read_num_or_ref_sim : forall s l e lg, St file s l e lg ->
    exists s', read_num_or_ref file s = (fst (p_num_or_ref l), s') /\
               St file s' (snd (p_num_or_ref l)) e lg.
  Proof.
    intros s l e lg H. unfold read_num_or_ref, p_num_or_ref.
    destruct (read_number_sim _ _ _ _ _ H) as (s1 & -> & H1).
    destruct (p_number l) as [v r]. cbn [fst snd] in *.
    destruct (read_int_any _ _ _ _ _ H1) as (s2 & -> & H2 & R2).
    destruct (p_int r) as [[g ok] r2]. cbn [fst snd] in *.
    assert (B : St file (seek file (pos s1) s2) r e lg).
    { pose proof (sk_St file s1 s2 _ _ _ H1) as K. destruct H2 as (_ & _ & _ & G). rewrite G in K. exact K. }
    destruct ok.
    - rewrite (R2 eq_refl) in H2.
      destruct (read_keyword_sim _ _ _ _ _ H2) as (s3 & -> & H3).
      destruct (p_keyword r2) as [kw r3]. cbn [fst snd] in *.
      destruct (bseq kw (lit "R")); cbn [fst snd].
      + eauto.
      + exists (seek file (pos s1) s3). split; auto.
        pose proof (sk_St file s1 s3 _ _ _ H1) as K. destruct H3 as (_ & _ & _ & G). rewrite G in K. exact K.
    - cbn [fst snd]. eauto.
  Qed.

  Section Loops.
    Variable ro : rd -> res ((obj * oerr) * rd).
    Variable pro : bytes -> pres (obj * oerr).
    Hypothesis ro_sim : forall s l e lg, St file s l e lg -> sim e lg (ro s) (pro l).

    Lemma array_loop_sim : forall n s l e lg acc, St file s l e lg ->
      sim e lg (array_loop ro n acc s) (p_array pro n acc l).
    Proof.
      induction n as [|n IH]; intros s l e lg acc H; [reflexivity|]. simpl.
      pose proof (ro_sim _ _ _ _ H) as R. unfold sim in R.
      destruct (pro l) as [[[o er] [r ms]]| |]; simpl.
      - destruct R as (s1 & -> & H1). simpl.
        assert (C : sim e lg (array_loop ro n (acc ++ [o]) s1)
                      (pthen ms (p_array pro n (acc ++ [o]) r) (fun x => x))).
        { pose proof (IH _ _ _ _ (acc ++ [o]) H1) as R2. unfold sim in *.
          destruct (p_array pro n (acc ++ [o]) r) as [[a [r' ms']]| |]; simpl; auto.
          destruct R2 as (s2 & -> & H2). rewrite <- app_assoc in H2. eauto. }
        destruct er; try exact C; simpl.
        + eexists; split; [reflexivity|]. rewrite app_assoc. apply le_St. exact H1.
        + eauto.
      - rewrite R. reflexivity.
      - rewrite R. reflexivity.
    Qed.

    Lemma dict_loop_sim : forall n s l e lg acc, St file s l e lg ->
      sim e lg (dict_loop ro n acc s) (p_dict pro n acc l).
    Proof.
      induction n as [|n IH]; intros s l e lg acc H; [reflexivity|]. simpl.
      pose proof (ro_sim _ _ _ _ H) as R. unfold sim in R.
      destruct (pro l) as [[[o er] [r ms]]| |]; simpl.
      - destruct R as (s1 & -> & H1). simpl.
        assert (C : sim e lg
          (match o with
              | OName key =>
                  rbind (ro s1) (fun '((v, e), s) =>
                    match e with
                    | EReadError | EEndOfDictionary =>
                        Ok (acc, log_error MissingDictionaryValue s)
                    | _ => dict_loop ro n (dset key v acc) s
                    end)
              | _ => dict_loop ro n acc (log_error InvalidDictionaryKeyType s1)
              end)
          (match o with
              | OName key =>
                  rbind (pro r) (fun '((v, e), (r, ms2)) =>
                    match e with
                    | EReadError | EEndOfDictionary =>
                        Ok (acc, (r, (ms ++ ms2) ++ [MissingDictionaryValue]))
                    | _ => pthen (ms ++ ms2) (p_dict pro n (dset key v acc) r) (fun x => x)
                    end)
              | _ => pthen (ms ++ [InvalidDictionaryKeyType]) (p_dict pro n acc r) (fun x => x)
              end)).
        { assert (K : sim e lg (dict_loop ro n acc (log_error InvalidDictionaryKeyType s1))
                      (pthen (ms ++ [InvalidDictionaryKeyType]) (p_dict pro n acc r) (fun x => x))).
          { pose proof (IH _ _ _ _ acc (le_St _ _ _ _ _ InvalidDictionaryKeyType H1)) as R2. unfold sim in *.
            destruct (p_dict pro n acc r) as [[a [r' ms']]| |]; simpl; auto.
            destruct R2 as (s2 & -> & H2). rewrite <- !app_assoc in *. eauto. }
          destruct o; try exact K. clear K.
          pose proof (ro_sim _ _ _ _ H1) as R2. unfold sim in R2.
          destruct (pro r) as [[[v2 er2] [r2 ms2]]| |]; simpl.
          - destruct R2 as (s2 & -> & H2). simpl. rewrite <- app_assoc in H2.
            assert (K : sim e lg (dict_loop ro n (dset v v2 acc) s2)
                     (pthen (ms ++ ms2) (p_dict pro n (dset v v2 acc) r2) (fun x => x))).
            { pose proof (IH _ _ _ _ (dset v v2 acc) H2) as R3. unfold sim in *.
              destruct (p_dict pro n (dset v v2 acc) r2) as [[a [r' ms']]| |]; simpl; auto.
              destruct R3 as (s3 & -> & H3). rewrite <- !app_assoc in *. eauto. }
            destruct er2; try exact K; simpl;
              (eexists; split; [reflexivity|]; rewrite !app_assoc in *; apply le_St; exact H2).
          - rewrite R2. reflexivity.
          - rewrite R2. reflexivity. }
        destruct er; try exact C; simpl.
        + eexists; split; [reflexivity|]. rewrite app_assoc. apply le_St. exact H1.
        + eauto.
      - rewrite R. reflexivity.
      - rewrite R. reflexivity.
    Qed.

    Lemma read_array_sim : forall n s r e lg, St file s ("["%byte :: r) e lg ->
      sim e lg (read_array_with ro n s) (p_array pro n [] r).
    Proof.
      intros n s r e lg H. unfold read_array_with. apply ws_sim in H.
      change (p_ws ("["%byte :: r)) with ("["%byte :: r) in H.
      destruct (rb_cons _ _ _ _ _ _ H) as (s1 & -> & H1 & _). rewrite beq_refl.
      apply array_loop_sim. exact H1.
    Qed.

    (** with both marker bytes in the buffer *)
    Lemma read_dict_sim : forall n s r e lg, St file s ("<"%byte :: "<"%byte :: r) e lg ->
      2 <= buf s -> last s = None ->
      sim e lg (read_dict_with ro n s) (p_dict pro n [] r).
    Proof.
      intros n s r e lg H Hb Hl. unfold read_dict_with.
      assert (W : consume_ws s = unread_byte (snd (read_byte s))).
      { unfold consume_ws. destruct (rb_cons _ _ _ _ _ _ H) as (s1 & E & H1 & _).
        simpl. rewrite E. simpl. reflexivity. }
      assert (B : buf (consume_ws s) = buf s).
      { rewrite W. destruct H as (_ & R & _). unfold read_byte, unread_byte. rewrite R. simpl.
        destruct (buf s =? 0) eqn:E; [apply Z.eqb_eq in E; lia|lia]. }
      apply ws_sim in H.
      change (p_ws ("<"%byte :: "<"%byte :: r)) with ("<"%byte :: "<"%byte :: r) in H.
      destruct (ru_cons _ _ 2 _ _ _ _ H) as (k & s' & K1 & K2 & -> & H1 & K3 & _); [lia|].
      assert (k = 2%nat).
      { apply K3. rewrite B. destruct (buf s =? 0) eqn:E; [apply Z.eqb_eq in E; lia|lia]. }
      subst k. simpl in H1. simpl firstn. cbn [app firstn].
      change (bseq ["<"%byte; "<"%byte] (lit "<<")) with true. cbv iota.
      apply dict_loop_sim. exact H1.
    Qed.
  End Loops.

  Lemma sim_map : forall A B e lg (m : res (A * rd)) (x : pres A) (f : A -> B),
    sim e lg m x -> sim e lg (rbind m (fun '(a, s) => Ok (f a, s))) (pthen [] x f).
  Proof.
    intros A B e lg m x f H. unfold sim in *. destruct x as [[a [r ms]]| |]; simpl.
    - destruct H as (s' & -> & H). simpl. eauto.
    - rewrite H. reflexivity.
    - rewrite H. reflexivity.
  Qed.

  Lemma dec_sim : forall e lg (dec : decryptor) v s r ms, St file s r e (lg ++ ms) ->
    sim e lg (rbind (rbind (dec v) (fun v => Ok (v, s))) (fun '(v, s) => Ok ((OStr v, ENone), s)))
        (p_dec dec ((v, r), ms)).
  Proof.
    intros e lg dec v s r ms H. unfold p_dec, sim. destruct (dec v); simpl; eauto.
  Qed.

  Theorem read_object_sim : forall dec fuel s l e lg, St file s l e lg ->
    sim e lg (read_object fuel file dec s) (p_object fuel dec l).
  Proof.
    intros dec. induction fuel as [|f IH]; intros s l e lg H; [reflexivity|].
    cbn [read_object p_object]. apply ws_sim in H.
    destruct (pk_St _ _ _ _ _ H) as (s1 & E1 & H1 & B1). rewrite E1.
    assert (L1 : last s1 = None) by (rewrite <- (pk_last (consume_ws s)); rewrite E1; reflexivity).
    destruct (p_ws l) as [|b0 r] eqn:EW.
    { simpl. eexists; split; [reflexivity|]. rewrite app_nil_r. exact H1. }
    change (firstn 2 (b0 :: r)) with (b0 :: firstn 1 r) at 1. cbv iota.
    destruct (beq b0 "/"%byte) eqn:E2.
    { apply beq_eq in E2; subst b0.
      destruct (read_name_sim _ _ _ _ _ H1) as (s2 & -> & H2).
      destruct (p_name r) as [[v r'] ms]. simpl in *. eauto. }
    destruct (beq b0 "["%byte) eqn:E3.
    { apply beq_eq in E3; subst b0. apply sim_map with (f := fun x => (OArr x, ENone)).
      apply read_array_sim; auto. }
    destruct (beq b0 "]"%byte) eqn:E4.
    { simpl. eexists; split; [reflexivity|]. rewrite app_nil_r.
      apply (dc_St file s1 1 _ _ _ H1); auto. rewrite zlen_cons in B1. pose proof (zlen_nonneg _ r). simpl; lia. }
    destruct (beq b0 "("%byte) eqn:E5.
    { apply beq_eq in E5; subst b0. unfold read_string.
      destruct (read_string_raw_sim _ _ _ _ _ H1) as (s2 & -> & H2).
      destruct (p_str 1 r) as [[v r'] ms]. simpl in H2. apply dec_sim. exact H2. }
    destruct (beq b0 ")"%byte) eqn:E6.
    { simpl. eexists; split; [reflexivity|]. rewrite app_nil_r.
      apply (dc_St file s1 1 _ _ _ H1); auto. rewrite zlen_cons in B1. pose proof (zlen_nonneg _ r). simpl; lia. }
    change (b0 :: firstn 1 r) with (firstn 2 (b0 :: r)).
    destruct (bseq (firstn 2 (b0 :: r)) (lit "<<")) eqn:E7.
    { apply bseq_eq in E7. destruct r as [|b1 r]; [discriminate|]. simpl in E7.
      injection E7 as -> ->. simpl tl. apply sim_map with (f := fun x => (ODict x, ENone)).
      apply read_dict_sim; auto. rewrite !zlen_cons in B1. pose proof (zlen_nonneg _ r). lia. }
    destruct (bseq (firstn 2 (b0 :: r)) (lit ">>")) eqn:E8.
    { apply bseq_eq in E8. destruct r as [|b1 r]; [discriminate|]. simpl in E8.
      injection E8 as -> ->. simpl tl. simpl. eexists; split; [reflexivity|]. rewrite app_nil_r.
      apply (dc_St file s1 2 _ _ _ H1); auto. rewrite !zlen_cons in B1. pose proof (zlen_nonneg _ r). simpl; lia. }
    destruct (beq b0 "<"%byte) eqn:E9.
    { apply beq_eq in E9; subst b0. unfold read_hex_string.
      destruct (read_hex_raw_sim _ _ _ _ _ H1) as (s2 & -> & H2).
      destruct (p_hex None r) as [[v r'] ms]. simpl in H2. apply dec_sim. exact H2. }
    destruct (beq b0 ">"%byte) eqn:E10.
    { simpl. eexists; split; [reflexivity|]. rewrite app_nil_r.
      apply (dc_St file s1 1 _ _ _ H1); auto. rewrite zlen_cons in B1. pose proof (zlen_nonneg _ r). simpl; lia. }
    destruct (is_digit b0 || beq b0 "+"%byte || beq b0 "-"%byte || beq b0 "."%byte).
    { destruct (read_num_or_ref_sim _ _ _ _ H1) as (s2 & -> & H2).
      destruct (p_num_or_ref (b0 :: r)) as [o r']. simpl in *. rewrite app_nil_r. eauto. }
    destruct (read_keyword_sim _ _ _ _ _ H1) as (s2 & -> & H2).
    unfold p_keyword in *. destruct (p_ws_cons _ _ _ EW) as [Q1 Q2].
    assert (EK : p_ws (b0 :: r) = b0 :: r) by (simpl; rewrite Q1, Q2; reflexivity).
    rewrite EK in *. destruct (p_kw (b0 :: r)) as [v r']. simpl in *. rewrite app_nil_r. eauto.
  Qed.
End Sim.

(** ** Progress and fuel *)

Lemma p_digits_len : forall l v, (List.length (snd (p_digits v l)) <= List.length l)%nat.
Proof.
  induction l as [|b r IH]; intros v; simpl; [lia|].
  destruct (is_digit b); simpl; [|lia]. specialize (IH (wrap64 (v * 10 + (bv b - 48)))). lia.
Qed.

Lemma p_int_len : forall l, (List.length (snd (p_int l)) <= List.length l)%nat.
Proof.
  intros l. unfold p_int. pose proof (proj1 (p_ws_len l)).
  destruct (p_ws l) as [|b r]; simpl in *; [lia|].
  destruct (is_digit b); [|simpl; lia].
  pose proof (p_digits_len r (bv b - 48)). destruct (p_digits (bv b - 48) r); simpl in *. lia.
Qed.

Lemma p_kw_len : forall l, (List.length (snd (p_kw l)) <= List.length l)%nat.
Proof.
  induction l as [|b r IH]; simpl; [lia|].
  destruct (is_ws b || is_delim b); simpl; [lia|].
  destruct (p_kw r); simpl in *. lia.
Qed.

Lemma p_keyword_len : forall l, (List.length (snd (p_keyword l)) <= List.length l)%nat.
Proof.
  intros l. unfold p_keyword. pose proof (proj1 (p_ws_len l)). pose proof (p_kw_len (p_ws l)). lia.
Qed.

Lemma out_snd : forall ms b x, snd (fst (out ms b x)) = snd (fst x).
Proof. intros ms b [[v r] m]; reflexivity. Qed.
Lemma add_msg_snd : forall ms x, snd (fst (add_msg ms x)) = snd (fst x).
Proof. intros ms [[v r] m]; reflexivity. Qed.

(** strong induction on the length of a list *)
Lemma len_ind : forall (P : bytes -> Prop),
  (forall l, (forall l', (List.length l' < List.length l)%nat -> P l') -> P l) -> forall l, P l.
Proof.
  intros P H l. assert (forall n l, (List.length l < n)%nat -> P l).
  { induction n; intros l0 Hl; [lia|]. apply H. intros l' Hl'. apply IHn. lia. }
  apply (H0 (S (List.length l))). lia.
Qed.

Lemma p_name_len : forall l, (List.length (snd (fst (p_name l))) <= List.length l)%nat.
Proof.
  induction l as [l IH] using len_ind. destruct l as [|b r]; [simpl; lia|].
  cbn [p_name]. destruct (is_delim b || is_ws b); [simpl; lia|].
  assert (T : forall l' ms c, (List.length l' < List.length (b :: r))%nat ->
      (List.length (snd (fst (out ms c (p_name l')))) <= List.length (b :: r))%nat).
  { intros l' ms c Hl. rewrite out_snd. specialize (IH l' Hl). lia. }
  destruct (beq b "#"%byte); [|apply T; simpl; lia].
  destruct r as [|a r1]; [simpl; lia|].
  destruct (is_hex a); [|apply T; simpl; lia].
  destruct r1 as [|c r2]; [simpl; lia|].
  destruct (is_hex c); apply T; simpl; lia.
Qed.

Lemma p_hex_len : forall l c1, (List.length (snd (fst (p_hex c1 l))) <= List.length l)%nat /\
                               (List.length (snd (fst (p_hexcm c1 l))) <= List.length l)%nat.
Proof.
  induction l as [|b r IH]; intros c1; [simpl; lia|].
  assert (A : forall c, (List.length (snd (fst (p_hex c r))) <= List.length (b :: r))%nat).
  { intros c. specialize (IH c). simpl. lia. }
  assert (B : (List.length (snd (fst (p_hexcm c1 r))) <= List.length (b :: r))%nat).
  { specialize (IH c1). simpl. lia. }
  cbn [p_hex p_hexcm]. split.
  - destruct (beq b "%"%byte); [exact B|].
    destruct (is_ws b); [apply A|].
    destruct (beq b ">"%byte); [simpl; lia|].
    destruct (is_hex b); simpl negb; cbv iota.
    + destruct c1; [rewrite out_snd|]; apply A.
    + rewrite add_msg_snd. apply A.
  - destruct (beq b x0a || beq b x0d); auto.
Qed.

Lemma p_str_len : forall l opn, (List.length (snd (fst (p_str opn l))) <= List.length l)%nat.
Proof.
  induction l as [l IH] using len_ind. intros opn. destruct l as [|b r]; [simpl; lia|].
  rewrite p_str_cons.
  assert (T : forall l' o, (List.length l' < List.length (b :: r))%nat ->
      (List.length (snd (fst (p_str o l'))) <= List.length (b :: r))%nat).
  { intros l' o Hl. specialize (IH l' Hl o). lia. }
  destruct (beq b "\"%byte).
  - destruct r as [|c r1]; [simpl; lia|].
    destruct (beq c x0a); [apply T; simpl; lia|].
    destruct (beq c x0d).
    { destruct r1 as [|d r2]; [simpl; lia|]. destruct (beq d x0a); apply T; simpl; lia. }
    destruct (is_octal c); [|rewrite out_snd; apply T; simpl; lia].
    destruct r1 as [|d r2]; [simpl; lia|].
    destruct (is_octal d); [|rewrite out_snd; apply T; simpl; lia].
    destruct r2 as [|x r3]; [simpl; lia|].
    destruct (is_octal x); [|rewrite out_snd; apply T; simpl; lia].
    destruct (octval [c; d; x] <=? 255); rewrite out_snd; apply T; simpl; lia.
  - cbv zeta. destruct (_ =? 0); [simpl; lia|]. rewrite out_snd. apply T. simpl. lia.
Qed.

Lemma p_num_int_len : forall l v, (List.length (snd (p_num_int v l)) <= List.length l)%nat.
Proof.
  induction l as [|b r IH]; intros v; simpl; [lia|].
  destruct (is_digit b); [specialize (IH (num_push v (bv b - 48))); lia|].
  destruct (beq b "."%byte); simpl; lia.
Qed.
Lemma p_num_real_len : forall l i v, (List.length (snd (p_num_real i v l)) <= List.length l)%nat.
Proof.
  induction l as [|b r IH]; intros i v; simpl; [lia|].
  destruct (is_digit b); [specialize (IH (i + 1) (num_frac v (bv b - 48) i)); lia|].
  simpl; lia.
Qed.
Lemma p_num_body_len : forall l v real, (List.length (snd (p_num_body v real l)) <= List.length l)%nat.
Proof.
  intros l v real. unfold p_num_body. destruct real; [apply p_num_real_len|].
  pose proof (p_num_int_len l v). destruct (p_num_int v l) as [[v' real'] r']. simpl in H.
  destruct real'; [|simpl; lia]. pose proof (p_num_real_len r' 1 v'). lia.
Qed.

(** a number token is not empty *)
Lemma p_number_len : forall b r,
  is_digit b || beq b "+"%byte || beq b "-"%byte || beq b "."%byte = true ->
  p_ws (b :: r) = b :: r ->
  (List.length (snd (p_number (b :: r))) <= List.length r)%nat.
Proof.
  intros b r H W. unfold p_number. rewrite W.
  destruct (beq b "-"%byte) eqn:E1.
  { pose proof (p_num_body_len r num_zero false). destruct (p_num_body num_zero false r); simpl in *; lia. }
  destruct (is_digit b); [apply p_num_body_len|].
  destruct (beq b "."%byte); [apply p_num_body_len|].
  destruct (beq b "+"%byte); [apply p_num_body_len|].
  discriminate.
Qed.

Lemma p_num_or_ref_len : forall b r,
  is_digit b || beq b "+"%byte || beq b "-"%byte || beq b "."%byte = true ->
  p_ws (b :: r) = b :: r ->
  (List.length (snd (p_num_or_ref (b :: r))) <= List.length r)%nat.
Proof.
  intros b r H W. unfold p_num_or_ref. pose proof (p_number_len b r H W) as L.
  destruct (p_number (b :: r)) as [v r1]. simpl in L.
  pose proof (p_int_len r1) as L2. destruct (p_int r1) as [[g ok] r2]. simpl in L2.
  destruct ok; [|simpl; lia].
  pose proof (p_keyword_len r2) as L3. destruct (p_keyword r2) as [kw r3]. simpl in L3.
  destruct (bseq kw (lit "R")); simpl; lia.
Qed.

(** [decent dec]: the decryptor itself does not run out of fuel (the model's
    decryptors never do). *)
Definition decent (dec : decryptor) : Prop := forall v, dec v <> OutOfFuel.

(** A result that is not [OutOfFuel] and leaves at most [n] bytes; an error
    other than ReadError consumed something. *)
Definition fine {A} (n : nat) (x : pres A) : Prop :=
  match x with
  | Ok (_, (r, _)) => (List.length r <= n)%nat
  | Panic => True
  | OutOfFuel => False
  end.
Definition finish (l : bytes) (x : pres (obj * oerr)) : Prop :=
  match x with
  | Ok ((_, e), (r, _)) =>
      if match e with EReadError => true | _ => false end
      then p_ws l = [] /\ r = []
      else (List.length r < List.length l)%nat
  | Panic => True
  | OutOfFuel => False
  end.

Section Fuel.
  Variable pro : bytes -> pres (obj * oerr).
  Variable bound : nat.
  Hypothesis pro_ok : forall l, (List.length l < bound)%nat -> finish l (pro l).

  Lemma p_array_fine : forall n acc l, (List.length l < n)%nat -> (List.length l < bound)%nat ->
    fine (List.length l) (p_array pro n acc l).
  Proof.
    induction n as [|n IH]; intros acc l Hn Hb; [lia|]. simpl.
    pose proof (pro_ok l Hb) as F. unfold finish in F.
    destruct (pro l) as [[[o e] [r ms]]| |]; simpl; auto.
    assert (C : (List.length r < List.length l)%nat ->
       fine (List.length l) (pthen ms (p_array pro n (acc ++ [o]) r) (fun x => x))).
    { intros Hr. specialize (IH (acc ++ [o]) r). unfold fine in *.
      destruct (p_array pro n (acc ++ [o]) r) as [[a [r' ms']]| |]; simpl; auto.
      - assert (List.length r' <= List.length r)%nat by (apply IH; lia). lia.
      - apply IH; lia. }
    destruct e; try (apply C; exact F); simpl.
    - destruct F as [_ ->]. simpl; lia.
    - lia.
  Qed.

  Lemma p_dict_fine : forall n acc l, (List.length l < n)%nat -> (List.length l < bound)%nat ->
    fine (List.length l) (p_dict pro n acc l).
  Proof.
    induction n as [|n IH]; intros acc l Hn Hb; [lia|]. simpl.
    pose proof (pro_ok l Hb) as F. unfold finish in F.
    destruct (pro l) as [[[o e] [r ms]]| |]; simpl; auto.
    assert (C : (List.length r < List.length l)%nat -> forall r1 ms1 acc1, (List.length r1 <= List.length r)%nat ->
       fine (List.length l) (pthen ms1 (p_dict pro n acc1 r1) (fun x => x))).
    { intros Hr r1 ms1 acc1 Hr1. specialize (IH acc1 r1). unfold fine in *.
      destruct (p_dict pro n acc1 r1) as [[a [r' ms']]| |]; simpl; auto.
      - assert (List.length r' <= List.length r1)%nat by (apply IH; lia). lia.
      - apply IH; lia. }
    assert (D : (List.length r < List.length l)%nat ->
      fine (List.length l) (match o with
              | OName key =>
                  rbind (pro r) (fun '((v, e), (r, ms2)) =>
                    match e with
                    | EReadError | EEndOfDictionary =>
                        Ok (acc, (r, (ms ++ ms2) ++ [MissingDictionaryValue]))
                    | _ => pthen (ms ++ ms2) (p_dict pro n (dset key v acc) r) (fun x => x)
                    end)
              | _ => pthen (ms ++ [InvalidDictionaryKeyType]) (p_dict pro n acc r) (fun x => x)
              end)).
    { intros Hr. destruct o; try (apply C; auto; lia).
      assert (Hb2 : (List.length r < bound)%nat) by lia.
      pose proof (pro_ok r Hb2) as F2. unfold finish in F2.
      destruct (pro r) as [[[v2 e2] [r2 ms2]]| |]; simpl; auto.
      destruct e2; try (apply C; auto; lia); simpl.
      - destruct F2 as [_ ->]. simpl; lia.
      - lia. }
    destruct e; try (apply D; exact F); simpl.
    - destruct F as [_ ->]. simpl; lia.
    - lia.
  Qed.
End Fuel.

Theorem p_object_finish : forall dec, decent dec ->
  forall fuel l, (List.length l < fuel)%nat -> finish l (p_object fuel dec l).
Proof.
  intros dec D. induction fuel as [|f IH]; intros l Hf; [lia|].
  cbn [p_object]. pose proof (proj1 (p_ws_len l)) as HL.
  destruct (p_ws l) as [|b0 r] eqn:EW; [simpl; auto|]. simpl in HL.
  destruct (p_ws_cons _ _ _ EW) as [Q1 Q2].
  assert (EK : p_ws (b0 :: r) = b0 :: r) by (simpl; rewrite Q1, Q2; reflexivity).
  assert (PD : forall x, (List.length (snd (fst x)) <= List.length r)%nat -> finish l (p_dec dec x)).
  { intros [[v r'] ms] Hr. unfold p_dec. specialize (D v). destruct (dec v); simpl in *; auto. lia. }
  destruct (beq b0 "/"%byte) eqn:Z0.
  { pose proof (p_name_len r). destruct (p_name r) as [[v r'] ms]. simpl in *. lia. }
  destruct (beq b0 "["%byte) eqn:Z1.
  { pose proof (p_array_fine (p_object f dec) f IH f [] r) as F. unfold fine in F.
    destruct (p_array (p_object f dec) f [] r) as [[a [r' ms]]| |]; simpl; auto.
    - assert (List.length r' <= List.length r)%nat by (apply F; lia). lia.
    - apply F; lia. }
  destruct (beq b0 "]"%byte) eqn:Z2; [simpl; lia|].
  destruct (beq b0 "("%byte) eqn:Z3; [apply PD; apply p_str_len|].
  destruct (beq b0 ")"%byte) eqn:Z4; [simpl; lia|].
  destruct (bseq (firstn 2 (b0 :: r)) (lit "<<")).
  { assert (HT : (List.length (tl r) <= List.length r)%nat) by (destruct r; simpl; lia).
    pose proof (p_dict_fine (p_object f dec) f IH f [] (tl r)) as F. unfold fine in F.
    destruct (p_dict (p_object f dec) f [] (tl r)) as [[a [r' ms]]| |]; simpl; auto.
    - assert (List.length r' <= List.length (tl r))%nat by (apply F; lia). lia.
    - apply F; lia. }
  destruct (bseq (firstn 2 (b0 :: r)) (lit ">>")).
  { simpl. destruct r; simpl in *; lia. }
  destruct (beq b0 "<"%byte) eqn:Z5; [apply PD; apply p_hex_len|].
  destruct (beq b0 ">"%byte) eqn:Z6; [simpl; lia|].
  destruct (is_digit b0 || beq b0 "+"%byte || beq b0 "-"%byte || beq b0 "."%byte) eqn:EN.
  { pose proof (p_num_or_ref_len b0 r EN EK). destruct (p_num_or_ref (b0 :: r)) as [o r']. simpl in *. lia. }
  (* keywords: the first byte is neither white space nor a delimiter *)
  cbn [p_kw]. destruct (is_ws b0 || is_delim b0) eqn:ED.
  - exfalso. rewrite Q2 in ED. unfold is_delim, inb in ED. simpl in ED.
    unfold lit in *. simpl in ED. rewrite Z0, Z1, Z2, Z3, Z4, Z5, Z6, Q1 in ED. discriminate.
  - pose proof (p_kw_len r). destruct (p_kw r) as [k r']. simpl in *. lia.
Qed.
