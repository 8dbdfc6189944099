(** ReadP.v -- proofs of the statements about the reading functions (C01-C12,
    C36), by transfer from the plain readers. *)
From Verif Require Import Base BaseP Msg Reader ReaderP Num NumP Lexer Obj ReadObj Plain LexerP ReadObjP PObjP
  SpecLex SpecLexP SpecObj SpecNumP SpecObjP SpecRead.
From Coq Require Import Strings.String.

Lemma total_decent : forall dec, total dec -> decent dec.
Proof. intros dec T v. destruct (T v) as (w & ->). discriminate. Qed.
Lemma total_calm : forall dec, total dec -> calm dec.
Proof. intros dec T v. destruct (T v) as (w & ->). discriminate. Qed.

Lemma P_object_calm : forall dec, calm dec -> forall l, P_object dec l <> Panic.
Proof. intros. apply p_object_calm; auto. Qed.

Lemma St_moved : forall file s s' l ms, wf file s ->
  St file s' l (pos s + zlen (rest s)) (log s ++ ms) -> moved file s s' l ms.
Proof. intros file s s' l ms H (W & R & P & L). unfold moved. split; [auto|]. split; [auto|]. split; [lia|auto]. Qed.

(** ** C01 *)
Lemma read_object_returns : forall file dec s, wf file s -> total dec ->
  exists o e s', ReadObject file dec s = Ok ((o, e), s') /\ wf file s' /\ (exists ms, log s' = log s ++ ms) /\
    (e = EReadError <-> blank (rest s)) /\
    (e = EReadError -> o = OKw (lit "null") /\ rest s' = []) /\
    (e <> EReadError -> pos s < pos s' <= pos s + zlen (rest s)).
Proof.
  intros file dec s H T. pose proof (ReadObject_plain file dec s H) as S. unfold sim in S.
  pose proof (P_finish dec (total_decent _ T) (rest s)) as F. unfold finish in F.
  pose proof (P_object_calm dec (total_calm _ T) (rest s)) as C.
  pose proof (P_object_eq dec (total_decent _ T) (rest s)) as EQ.
  destruct (P_object dec (rest s)) as [[[o e] [r ms]]| |]; try tauto.
  destruct S as (s' & E & SS). apply St_moved in SS; auto. destruct SS as (W & R & P & L).
  exists o, e, s'. split; [exact E|]. split; [exact W|]. split; [exists ms; exact L|].
  assert (B : e = EReadError <-> blank (rest s)).
  { rewrite <- blank_spec. split.
    - intros ->. tauto.
    - intros Z. rewrite Z in EQ. injection EQ as -> -> _ _. reflexivity. }
  split; [exact B|]. split.
  - intros X. pose proof X as Y. apply B, blank_spec in Y. rewrite Y in EQ. injection EQ as -> -> -> _. auto.
  - intros X. destruct e; try congruence; unfold zlen in *; lia.
Qed.

Lemma wf_ws : forall file s, wf file s -> wf file (consume_ws s).
Proof. intros file s H. destruct (ws_sim _ _ _ _ _ (wf_St _ _ H)) as (W & _). exact W. Qed.

Lemma read_array_returns : forall file dec s, wf file s -> total dec ->
  exists a s', ReadArray file dec s = Ok (a, s') /\ wf file s'.
Proof.
  intros file dec s H T.
  destruct (p_ws (rest s)) as [|b r] eqn:E.
  - pose proof (ws_sim _ _ _ _ _ (wf_St _ _ H)) as S1. rewrite E in S1.
    unfold ReadArray, read_array_with. rewrite (rb_nil _ _ _ _ S1). do 2 eexists. split; [reflexivity|apply S1].
  - destruct (beq b "["%byte) eqn:B.
    + apply beq_eq in B. subst b. pose proof (ReadArray_plain file dec s r H (total_decent _ T) E) as S.
      assert (F : forall n acc l, (List.length l < n)%nat -> exists x, p_array (P_object dec) n acc l = Ok x).
      { induction n as [|n IH]; intros acc l Hl; [lia|]. simpl.
        pose proof (P_finish dec (total_decent _ T) l) as F. unfold finish in F.
        pose proof (P_object_calm dec (total_calm _ T) l) as C.
        destruct (P_object dec l) as [[[o e] [r' ms]]| |]; try tauto. simpl.
        assert (K : (List.length r' < List.length l)%nat ->
           exists x, pthen ms (p_array (P_object dec) n (acc ++ [o]) r') (fun x => x) = Ok x).
        { intros Hr. destruct (IH (acc ++ [o]) r') as ([a [r2 m2]] & ->); [lia|]. unfold pthen. simpl. eauto. }
        destruct e; eauto. }
      unfold P_array in S. destruct (F (Datatypes.S (List.length r)) [] r) as ([a [r' ms]] & X); [lia|].
      rewrite X in S. destruct S as (s' & -> & SS). exists a, s'. split; [reflexivity|apply SS].
    + pose proof (ws_sim _ _ _ _ _ (wf_St _ _ H)) as S1. rewrite E in S1.
      unfold ReadArray, read_array_with. destruct (rb_cons _ _ _ _ _ _ S1) as (s1 & -> & H1 & _).
      rewrite B. do 2 eexists. split; [reflexivity|apply H1].
Qed.

Lemma p_dict_total : forall dec, total dec -> forall n acc l, (List.length l < n)%nat ->
  exists x, p_dict (P_object dec) n acc l = Ok x.
Proof.
  intros dec T. pose proof (P_finish dec (total_decent _ T)) as F. unfold finish in F.
  pose proof (P_object_calm dec (total_calm _ T)) as C.
  induction n as [|n IH]; intros acc l Hl; [lia|]. cbn [p_dict].
  specialize (F l) as F1. specialize (C l) as C1.
  destruct (P_object dec l) as [[[o e] [r' ms]]| |]; try tauto. cbn [rbind].
  assert (K : forall ms acc r', (List.length r' < List.length l)%nat ->
     exists x, pthen ms (p_dict (P_object dec) n acc r') (fun x => x) = Ok x).
  { intros ms0 acc0 r0 Hr. destruct (IH acc0 r0) as ([a [r2 m2]] & ->); [lia|]. unfold pthen. simpl. eauto. }
  assert (KK : (List.length r' < List.length l)%nat -> exists x, match o with
      | OName key =>
          rbind (P_object dec r') (fun '((v, e), (r, ms2)) =>
            match e with
            | EReadError | EEndOfDictionary => Ok (acc, (r, (ms ++ ms2) ++ [MissingDictionaryValue]))
            | _ => pthen (ms ++ ms2) (p_dict (P_object dec) n (dset key v acc) r) (fun x => x)
            end)
      | _ => pthen (ms ++ [InvalidDictionaryKeyType]) (p_dict (P_object dec) n acc r') (fun x => x)
      end = Ok x).
  { intros Hr. destruct o; try (apply K; lia).
    specialize (F r'). specialize (C r').
    destruct (P_object dec r') as [[[v2 e2] [r2 ms2]]| |]; try tauto. cbn [rbind].
    destruct e2; eauto; apply K; lia. }
  destruct e; eauto.
Qed.

Lemma ReadDictionary_cases : forall file dec s, wf file s -> decent dec ->
  (exists r, p_ws (rest s) = "<"%byte :: "<"%byte :: r /\ buf (consume_ws s) <> 1 /\
     sim file (pos s + zlen (rest s)) (log s) (ReadDictionary file dec s) (P_dict dec [] r)) \/
  (((forall r, p_ws (rest s) <> "<"%byte :: "<"%byte :: r) \/ buf (consume_ws s) = 1) /\
   exists s', ReadDictionary file dec s = Ok ([], s') /\ wf file s' /\ log s' = log s).
Proof.
  intros file dec s H D. pose proof (ws_sim _ _ _ _ _ (wf_St _ _ H)) as S1.
  unfold ReadDictionary, read_dict_with.
  destruct (p_ws (rest s)) as [|b r] eqn:E.
  { right. rewrite (ru_nil _ _ _ _ _ S1). split; [left; intros; discriminate|].
    eexists. split; [reflexivity|]. split; [apply S1|apply S1]. }
  pose proof S1 as S0.
  destruct (ru_cons _ _ 2 _ _ _ _ S1) as (k & s' & K1 & K2 & -> & H1 & K3 & K4); [lia|].
  destruct (Z.eq_dec (buf (consume_ws s)) 1) as [B|B].
  - right. split; [auto|]. assert (k = 1%nat) as ->.
    { rewrite B in K4. simpl in K4. lia. }
    cbn [firstn app]. destruct (bseq [b; x00] (lit "<<")) eqn:Q.
    { apply bseq_eq in Q. discriminate. }
    eexists. split; [reflexivity|]. destruct H1 as (W & _ & _ & L). split; auto.
  - assert (K : k = Nat.min 2 (List.length (b :: r))).
    { destruct r as [|c r].
      - simpl in *. assert (0 <= k <= 1)%nat by lia. lia.
      - apply K3. destruct (buf (consume_ws s) =? 0) eqn:Z; [|apply Z.eqb_neq in Z].
        + rewrite !zlen_cons. pose proof (zlen_nonneg _ r). lia.
        + destruct S0 as ([_ _ W _] & R & _). lia. }
    destruct r as [|c r].
    { simpl in K. subst k. right. cbn [firstn app].
      destruct (bseq [b; x00] (lit "<<")) eqn:Q. { apply bseq_eq in Q. discriminate. }
      split; [left; intros; discriminate|]. eexists. split; [reflexivity|]. destruct H1 as (W & _ & _ & L). split; auto. }
    simpl in K. subst k. cbn [firstn app]. destruct (bseq [b; c] (lit "<<")) eqn:Q.
    + apply bseq_eq in Q. injection Q as -> ->. left. exists r. split; [reflexivity|]. split; [exact B|].
      cbn [skipn] in H1.
      replace (P_dict dec [] r) with (p_dict (p_object (enough s) dec) (enough s) [] r).
      * apply dict_loop_sim; auto. intros. apply read_object_sim; auto.
      * unfold P_dict, enough. pose proof (proj1 (p_ws_len (rest s))) as L. rewrite E in L. simpl in L.
        apply (p_dict_ext _ _ (S (List.length (rest s)))); try lia.
        -- intros. apply p_object_fuel; auto; lia.
        -- intros. apply p_object_finish; auto.
    + right. split.
      * left. intros r0 X. injection X as -> -> _. discriminate.
      * eexists. split; [reflexivity|]. destruct H1 as (W & _ & _ & L). split; auto.
Qed.

Lemma read_dictionary_returns : forall file dec s, wf file s -> total dec ->
  exists d s', ReadDictionary file dec s = Ok (d, s') /\ wf file s'.
Proof.
  intros file dec s H T.
  destruct (ReadDictionary_cases file dec s H (total_decent _ T)) as [(r & _ & _ & S)|(_ & s' & -> & W & _)]; eauto.
  destruct (p_dict_total dec T (Datatypes.S (List.length r)) [] r) as ([d [r' ms]] & X); [lia|].
  unfold P_dict in S. rewrite X in S. destruct S as (s' & -> & SS). exists d, s'. split; [reflexivity|apply SS].
Qed.

Lemma no_total : total no_decryptor.
Proof. intros v. exists v. reflexivity. Qed.

Lemma wf_shorter : forall file s0 s1, wf file s0 -> wf file s1 -> pos s0 < pos s1 ->
  pos s1 <= pos s0 + zlen (rest s0) -> (List.length (rest s1) < List.length (rest s0))%nat.
Proof.
  intros file s0 s1 [Q1 Q2 _ _] [Q3 Q4 _ _] P1 P2. rewrite Q4, Q2 in *. unfold zlen in P2.
  rewrite !zdrop_skipn in * by lia. rewrite !skipn_length in *. lia.
Qed.

Lemma read_command_returns : forall file s, wf file s ->
  exists x s', ReadCommand file s = Ok (x, s') /\ wf file s'.
Proof.
  intros file s H. unfold ReadCommand, enough.
  assert (K : forall n ops s, wf file s -> (List.length (rest s) < n)%nat ->
     exists x s', read_command_loop n file ops s = Ok (x, s') /\ wf file s').
  { induction n as [|n IH]; intros ops s0 H0 Hn; [lia|]. cbn [read_command_loop].
    destruct (read_object_returns file no_decryptor s0 H0 no_total) as (o & e & s1 & -> & W & _ & B & R1 & R2).
    cbn [rbind]. destruct e; try (do 2 eexists; split; [reflexivity|exact W]).
    assert (L : (List.length (rest s1) < n)%nat).
    { destruct R2 as [P1 P2]; [discriminate|].
      pose proof (wf_shorter _ _ _ H0 W P1 P2). lia. }
    destruct o; eauto. }
  apply K; auto.
Qed.

(** ** C02, C36 *)
Lemma P_gap : forall dec, decent dec -> forall g l, gap g -> P_object dec (g ++ l) = P_object dec l.
Proof. intros dec D g l H. rewrite !(P_object_eq _ D). rewrite gap_ws_app by auto. reflexivity. Qed.

Lemma sim_same : forall A f1 f2 s1 s2 (m1 m2 : res (A * rd)) x, wf f1 s1 -> wf f2 s2 ->
  x <> OutOfFuel ->
  sim f1 (pos s1 + zlen (rest s1)) (log s1) m1 x -> sim f2 (pos s2 + zlen (rest s2)) (log s2) m2 x ->
  same_outcome s1 s2 m1 m2.
Proof.
  intros A f1 f2 s1 s2 m1 m2 x W1 W2 N S1 S2. unfold sim in *. destruct x as [[a [r ms]]| |]; try congruence.
  - destruct S1 as (t1 & -> & (_ & R1 & _ & L1)), S2 as (t2 & -> & (_ & R2 & _ & L2)).
    simpl. split; auto. split; [congruence|]. exists ms. auto.
  - subst. exact I.
Qed.

Lemma P_no_fuel : forall dec, decent dec -> forall l, P_object dec l <> OutOfFuel.
Proof. intros dec D l. pose proof (P_finish dec D l) as F. destruct (P_object dec l); simpl in F; congruence || tauto. Qed.

Lemma gap_same_outcome : forall dec, (forall v, dec v <> OutOfFuel) -> forall f1 f2 s1 s2 g, wf f1 s1 -> wf f2 s2 -> gap g ->
  rest s1 = g ++ rest s2 -> same_outcome s1 s2 (ReadObject f1 dec s1) (ReadObject f2 dec s2).
Proof.
  intros dec D f1 f2 s1 s2 g W1 W2 Hg E.
  apply (sim_same _ f1 f2 _ _ _ _ (P_object dec (rest s2))); auto.
  - apply P_no_fuel; auto.
  - rewrite <- (P_gap dec D g) by auto. rewrite <- E. apply ReadObject_plain; auto.
  - apply ReadObject_plain; auto.
Qed.

Lemma P_dict_no_fuel : forall dec, decent dec -> forall acc l, P_dict dec acc l <> OutOfFuel.
Proof.
  intros dec D acc l. unfold P_dict.
  assert (K : forall n acc l, (List.length l < n)%nat -> p_dict (P_object dec) n acc l <> OutOfFuel); [|apply K; lia].
  pose proof (P_finish dec D) as F. unfold finish in F.
  induction n as [|n IH]; intros acc0 l0 Hl; [lia|]. cbn [p_dict].
  specialize (F l0) as F1. destruct (P_object dec l0) as [[[o e] [r' ms]]| |]; try tauto; [|discriminate]. cbn [rbind].
  assert (K : forall ms acc r', (List.length r' < List.length l0)%nat ->
     pthen ms (p_dict (P_object dec) n acc r') (fun x => x) <> OutOfFuel).
  { intros ms0 acc1 r0 Hr. specialize (IH acc1 r0). unfold pthen.
    destruct (p_dict (P_object dec) n acc1 r0) as [[? [? ?]]| |]; simpl; try discriminate. intros _. apply IH; [lia|auto]. }
  assert (KK : (List.length r' < List.length l0)%nat -> match o with
      | OName key =>
          rbind (P_object dec r') (fun '((v, e), (r, ms2)) =>
            match e with
            | EReadError | EEndOfDictionary => Ok (acc0, (r, (ms ++ ms2) ++ [MissingDictionaryValue]))
            | _ => pthen (ms ++ ms2) (p_dict (P_object dec) n (dset key v acc0) r) (fun x => x)
            end)
      | _ => pthen (ms ++ [InvalidDictionaryKeyType]) (p_dict (P_object dec) n acc0 r') (fun x => x)
      end <> OutOfFuel).
  { intros Hr. destruct o; try (apply K; lia). specialize (F r').
    destruct (P_object dec r') as [[[v2 e2] [r2 ms2]]| |]; try tauto; [|discriminate]. cbn [rbind].
    destruct e2; try discriminate; apply K; lia. }
  destruct e; try discriminate; auto.
Qed.

Lemma dictionary_same_outcome : forall dec, (forall v, dec v <> OutOfFuel) -> forall f1 f2 s1 s2 l,
  wf f1 s1 -> wf f2 s2 ->
  rest (consume_ws s1) = "<"%byte :: "<"%byte :: l -> rest (consume_ws s2) = "<"%byte :: "<"%byte :: l ->
  buf (consume_ws s1) <> 1 -> buf (consume_ws s2) <> 1 ->
  same_outcome s1 s2 (ReadDictionary f1 dec s1) (ReadDictionary f2 dec s2).
Proof.
  intros dec D f1 f2 s1 s2 l W1 W2 E1 E2 B1 B2.
  assert (Q : forall f s, wf f s -> rest (consume_ws s) = p_ws (rest s)).
  { intros f s W. destruct (ws_sim _ _ _ _ _ (wf_St _ _ W)) as (_ & R & _). exact R. }
  rewrite (Q f1) in E1 by auto. rewrite (Q f2) in E2 by auto.
  destruct (ReadDictionary_cases f1 dec s1 W1 D) as [(r1 & R1 & _ & S1)|([N|N] & _)]; [|apply N in E1; tauto|tauto].
  destruct (ReadDictionary_cases f2 dec s2 W2 D) as [(r2 & R2 & _ & S2)|([N|N] & _)]; [|apply N in E2; tauto|tauto].
  rewrite R1 in E1; rewrite R2 in E2. injection E1 as ->. injection E2 as ->.
  apply (sim_same _ f1 f2 _ _ _ _ (P_dict dec [] l)); auto. apply P_dict_no_fuel; auto.
Qed.

(** ** Reading with a decryptor maps it over the strings *)
Definition pmap {A B} (f : A -> B) (x : pres A) : pres B :=
  match x with Ok (a, y) => Ok (f a, y) | Panic => Panic | OutOfFuel => OutOfFuel end.

Definition map_dict (f : bytes -> bytes) (d : dict) : dict :=
  map (fun kv => (fst kv, map_strings f (snd kv))) d.

Lemma map_dict_set : forall f k v d, map_dict f (dset k v d) = dset k (map_strings f v) (map_dict f d).
Proof.
  intros f k v d. unfold dset, map_dict. induction d as [|[k' v'] d IH]; [reflexivity|]. simpl.
  destruct (bseq k k'); simpl; [reflexivity|]. rewrite IH. reflexivity.
Qed.

Section Decrypting.
  Variable dec : decryptor.
  Variable f : bytes -> bytes.
  Hypothesis Hf : forall v, dec v = Ok (f v).

  Lemma f_total : total dec.
  Proof. intros v. eauto. Qed.
  Let DD : decent dec := total_decent _ f_total.

  Lemma P_object_map : forall l, P_object dec l = pmap (fun x => (map_strings f (fst x), snd x)) (P0 l).
  Proof.
    induction l as [l IH] using len_ind.
    assert (A : forall n l', (List.length l' < List.length l)%nat -> (List.length l' < n)%nat -> forall acc,
      P_array dec (map (map_strings f) acc) l' = pmap (map (map_strings f)) (P_array no_decryptor acc l')).
    { induction n as [|n IHn]; intros l' Hl Hn acc; [lia|].
      rewrite (P_array_eq _ DD), (P_array_eq _ no_decent). rewrite IH by auto.
      pose proof (P_finish _ no_decent l') as F. unfold finish in F.
      destruct (P0 l') as [[[o e] [r ms]]| |]; cbn [pmap rbind fst snd]; auto.
      assert (K : (List.length r < List.length l')%nat ->
         pthen ms (P_array dec (map (map_strings f) acc ++ [map_strings f o]) r) (fun x => x) =
         pmap (map (map_strings f)) (pthen ms (P_array no_decryptor (acc ++ [o]) r) (fun x => x))).
      { intros Hr. replace (map (map_strings f) acc ++ [map_strings f o])
          with (map (map_strings f) (acc ++ [o])) by (rewrite map_app; reflexivity).
        rewrite IHn by lia. unfold pthen.
        destruct (P_array no_decryptor (acc ++ [o]) r) as [[a [r' ms']]| |]; reflexivity. }
      destruct e; auto. }
    assert (D : forall n l', (List.length l' < List.length l)%nat -> (List.length l' < n)%nat -> forall acc,
      P_dict dec (map_dict f acc) l' = pmap (map_dict f) (P_dict no_decryptor acc l')).
    { induction n as [|n IHn]; intros l' Hl Hn acc; [lia|].
      rewrite (P_dict_eq _ DD), (P_dict_eq _ no_decent). rewrite IH by auto.
      pose proof (P_finish _ no_decent l') as F. unfold finish in F.
      destruct (P0 l') as [[[o e] [r ms]]| |]; cbn [pmap rbind fst snd]; auto.
      assert (K : forall ms acc r, (List.length r < List.length l')%nat ->
         pthen ms (P_dict dec (map_dict f acc) r) (fun x => x) =
         pmap (map_dict f) (pthen ms (P_dict no_decryptor acc r) (fun x => x))).
      { intros ms0 acc0 r0 Hr. rewrite IHn by lia. unfold pthen.
        destruct (P_dict no_decryptor acc0 r0) as [[a [r' ms']]| |]; reflexivity. }
      assert (KK : (List.length r < List.length l')%nat ->
        match map_strings f o with
        | OName key =>
            rbind (P_object dec r) (fun '((v, e), (r, ms2)) =>
              match e with
              | EReadError | EEndOfDictionary =>
                  Ok (map_dict f acc, (r, (ms ++ ms2) ++ [MissingDictionaryValue]))
              | _ => pthen (ms ++ ms2) (P_dict dec (dset key v (map_dict f acc)) r) (fun x => x)
              end)
        | _ => pthen (ms ++ [InvalidDictionaryKeyType]) (P_dict dec (map_dict f acc) r) (fun x => x)
        end =
        pmap (map_dict f) (match o with
        | OName key =>
            rbind (P0 r) (fun '((v, e), (r, ms2)) =>
              match e with
              | EReadError | EEndOfDictionary =>
                  Ok (acc, (r, (ms ++ ms2) ++ [MissingDictionaryValue]))
              | _ => pthen (ms ++ ms2) (P_dict no_decryptor (dset key v acc) r) (fun x => x)
              end)
        | _ => pthen (ms ++ [InvalidDictionaryKeyType]) (P_dict no_decryptor acc r) (fun x => x)
        end)).
      { intros Hr. destruct o; cbn [map_strings]; try (apply K; lia).
        rewrite IH by lia. pose proof (P_finish _ no_decent r) as F2. unfold finish in F2.
        destruct (P0 r) as [[[o2 e2] [r2 ms2]]| |]; cbn [pmap rbind fst snd]; auto.
        destruct e2; auto; rewrite <- map_dict_set; apply K; lia. }
      destruct e; auto. }
    rewrite (P_object_eq _ DD), (P_object_eq _ no_decent).
    pose proof (proj1 (p_ws_len l)) as HL. destruct (p_ws l) as [|b r]; [reflexivity|]. simpl in HL.
    destruct (beq b "/"%byte); [destruct (p_name r) as [[? ?] ?]; reflexivity|].
    destruct (beq b "["%byte).
    { change (@nil obj) with (map (map_strings f) []) at 1. rewrite (A (S (List.length r))) by lia. unfold pthen.
      destruct (P_array no_decryptor [] r) as [[a [r' ms]]| |]; reflexivity. }
    destruct (beq b "]"%byte); [reflexivity|].
    assert (PD : forall x, p_dec dec x = pmap (fun x => (map_strings f (fst x), snd x)) (p_dec no_decryptor x)).
    { intros [[v r'] ms]. unfold p_dec. rewrite Hf. reflexivity. }
    destruct (beq b "("%byte); [apply PD|]. destruct (beq b ")"%byte); [reflexivity|].
    destruct (bseq (firstn 2 (b :: r)) (lit "<<")).
    { assert (HT : (List.length (tl r) <= List.length r)%nat) by (destruct r; simpl; lia).
      change (@nil (bytes * obj)) with (map_dict f []) at 1. rewrite (D (S (List.length r))) by lia. unfold pthen.
      destruct (P_dict no_decryptor [] (tl r)) as [[a [r' ms]]| |]; reflexivity. }
    destruct (bseq (firstn 2 (b :: r)) (lit ">>")); [reflexivity|].
    destruct (beq b "<"%byte); [apply PD|]. destruct (beq b ">"%byte); [reflexivity|].
    destruct (is_digit b || beq b "+"%byte || beq b "-"%byte || beq b "."%byte).
    - assert (NR : forall l, exists o r, p_num_or_ref l = (o, r) /\ map_strings f o = o).
      { intros l0. unfold p_num_or_ref. destruct (p_number l0) as [v r0]. destruct (p_int r0) as [[g []] r2].
        - destruct (p_keyword r2) as [kw r3]. destruct (bseq kw (lit "R")); eauto.
        - eauto. }
      destruct (NR (b :: r)) as (o & r' & -> & M). simpl. rewrite M. reflexivity.
    - destruct (p_kw (b :: r)). reflexivity.
  Qed.

  Lemma read_object_map : forall file s, wf file s ->
    match ReadObject file no_decryptor s with
    | Ok ((o, e), s') => exists s2, ReadObject file dec s = Ok ((map_strings f o, e), s2) /\
         rest s2 = rest s' /\ pos s2 = pos s' /\ log s2 = log s'
    | _ => False
    end.
  Proof.
    intros file s W. pose proof (ReadObject_plain file dec s W) as S1.
    pose proof (ReadObject_plain file no_decryptor s W) as S2. rewrite P_object_map in S1.
    pose proof (P_no_fuel _ no_decent (rest s)). pose proof (P_object_calm _ no_calm (rest s)).
    destruct (P0 (rest s)) as [[[o e] [r ms]]| |]; try congruence. simpl in S1, S2.
    destruct S2 as (s' & -> & (_ & A1 & A2 & A3)). destruct S1 as (s2 & -> & (_ & B1 & B2 & B3)).
    exists s2. split; auto. split; [congruence|]. split; [lia|congruence].
  Qed.
End Decrypting.

(** plain results of the reader without decryption, with any decryptor *)
Lemma read_plain : forall file dec f s t l o ms, wf file s -> (forall v, dec v = Ok (f v)) ->
  rest s = t -> P0 t = Ok ((o, ENone), (l, ms)) ->
  exists s', ReadObject file dec s = Ok ((map_strings f o, ENone), s') /\ moved file s s' l ms.
Proof.
  intros file dec f s t l o ms W Hf E P. pose proof (ReadObject_plain file dec s W) as S.
  rewrite (P_object_map dec f Hf) in S. rewrite E, P in S. simpl in S. destruct S as (s' & H1 & H2).
  exists s'. split; auto. apply St_moved; auto. rewrite E. exact H2.
Qed.

(** ** Tokens: C03, C04, C05, C06 *)
Lemma read_string_exact : forall file dec s g t v k r w, wf file s -> gap g -> str_body t v k -> dec v = Ok w ->
  rest s = g ++ "("%byte :: t ++ ")"%byte :: r ->
  exists s', read_string dec s = Ok (w, s') /\ moved file s s' r (repeat UnnecessaryEscapeString k).
Proof.
  intros file dec s g t v k r w W Hg Ht Hd E. pose proof (ws_sim _ _ _ _ _ (wf_St _ _ W)) as S1.
  rewrite E in S1 at 1. rewrite gap_ws_app in S1 by auto. rewrite p_ws_id in S1 by reflexivity.
  unfold read_string, read_string_raw. destruct (rb_cons _ _ _ _ _ _ S1) as (s1 & -> & H1 & _).
  rewrite beq_refl.
  destruct (read_string_loop_sim _ _ _ _ _ _ 1 [] H1 (St_len _ _ _ _ _ H1)) as (s2 & -> & H2).
  rewrite (str_text_p _ _ _ _ Ht) in *. cbn [fst snd app] in *. rewrite Hd. cbn [rbind].
  exists s2. split; auto. apply St_moved; auto.
Qed.

Lemma read_hex_exact : forall file dec s g t ds k v r w, wf file s -> gap g -> hex_digits t ds k -> hex_pairs ds v ->
  dec v = Ok w -> rest s = g ++ "<"%byte :: t ++ ">"%byte :: r ->
  exists s', read_hex_string dec s = Ok (w, s') /\ moved file s s' r (repeat InvalidHexStringChar k).
Proof.
  intros file dec s g t ds k v r w W Hg Ht Hv Hd E. pose proof (ws_sim _ _ _ _ _ (wf_St _ _ W)) as S1.
  rewrite E in S1 at 1. rewrite gap_ws_app in S1 by auto. rewrite p_ws_id in S1 by reflexivity.
  unfold read_hex_string, read_hex_raw. destruct (rb_cons _ _ _ _ _ _ S1) as (s1 & -> & H1 & _).
  rewrite beq_refl.
  destruct (read_hex_loop_sim _ _ _ _ _ _ None [] H1 (St_len _ _ _ _ _ H1)) as (s2 & -> & H2).
  rewrite (hex_text_p _ _ _ _ _ Ht Hv) in *. cbn [fst snd app] in *. rewrite Hd. cbn [rbind].
  exists s2. split; auto. apply St_moved; auto.
Qed.

Lemma read_name_exact : forall file s g t v k r, wf file s -> gap g -> name_body t v k -> ends_token r ->
  rest s = g ++ "/"%byte :: t ++ r ->
  exists s', read_name s = (v, s') /\ moved file s s' r (repeat UnnecessaryEscapeName k).
Proof.
  intros file s g t v k r W Hg Ht He E. pose proof (ws_sim _ _ _ _ _ (wf_St _ _ W)) as S1.
  rewrite E in S1 at 1. rewrite gap_ws_app in S1 by auto. rewrite p_ws_id in S1 by reflexivity.
  unfold read_name. destruct (rb_cons _ _ _ _ _ _ S1) as (s1 & -> & H1 & _). rewrite beq_refl.
  destruct (read_name_loop_sim _ _ _ _ _ _ [] H1 (St_len _ _ _ _ _ H1)) as (s2 & -> & H2).
  rewrite (name_text_p _ _ _ _ Ht He) in *. cbn [fst snd app] in *.
  exists s2. split; auto. apply St_moved; auto.
Qed.

Lemma first_num_gap : forall g t l, gap g -> (exists b r, t = b :: r /\ numfirst b = true) ->
  p_number (g ++ t ++ l) = p_number (t ++ l).
Proof.
  intros g t l Hg _. unfold p_number. rewrite gap_ws_app by auto. reflexivity.
Qed.

Lemma read_number_exact : forall file s g t z r, wf file s -> gap g -> int_text t z -> - 2 ^ 53 <= z <= 2 ^ 53 ->
  ends_number r -> rest s = g ++ t ++ r ->
  exists v s', read_number s = (v, s') /\ float_is v z /\ num_int v = z /\ moved file s s' r [].
Proof.
  intros file s g t z r W Hg Ht Hz He E.
  destruct (read_number_sim file s (rest s) _ _ (wf_St _ _ W)) as (s' & H1 & H2).
  destruct (int_text_p t z r Ht Hz He) as (v & P & F & I & _).
  assert (Q : p_number (rest s) = (v, r)).
  { rewrite E. rewrite first_num_gap; auto. eapply int_text_numfirst; eauto. }
  rewrite Q in *. exists v, s'. split; auto. split; auto. split; auto. apply St_moved; auto. rewrite app_nil_r. auto.
Qed.

Lemma read_object_int : forall file dec s g t z r, wf file s -> total dec -> gap g -> int_text t z ->
  - 2 ^ 53 <= z <= 2 ^ 53 -> ends_number r -> (forall n r', ~ ref_tail r n r') -> rest s = g ++ t ++ r ->
  exists v s', ReadObject file dec s = Ok ((ONum v, ENone), s') /\ float_is v z /\ num_int v = z /\ moved file s s' r [].
Proof.
  intros file dec s g t z r W T Hg Ht Hz He Hr E.
  destruct (int_text_p t z r Ht Hz He) as (v & P & F & I & _).
  pose proof (ReadObject_plain file dec s W) as S. rewrite E in S at 2. rewrite P_gap in S by (auto; apply total_decent; auto).
  assert (Q : P_object dec (t ++ r) = Ok ((ONum v, ENone), (r, []))).
  { assert (Q0 : P0 (t ++ r) = Ok ((ONum v, ENone), (r, []))).
    { apply P_number; auto. eapply int_text_numfirst; eauto. apply ref_tail_spec; auto. }
    destruct (int_text_numfirst _ _ Ht) as (b & r' & Eb & Nb).
    revert Q0. rewrite (P_object_eq _ (total_decent _ T)), (P_object_eq _ no_decent). rewrite Eb.
    destruct (p_ws ((b :: r') ++ r)) as [|b1 r1] eqn:EW; [discriminate|].
    simpl in EW. assert (B : beq b "%"%byte = false /\ is_ws b = false /\ b1 = b).
    { revert Nb EW. destruct b; intros Nb; try discriminate Nb; simpl; intros EW; injection EW as <- _; auto. }
    destruct B as (B1 & B2 & ->). clear EW.
    revert Nb. destruct b; intros Nb; try discriminate Nb; simpl; auto. }
  rewrite Q in S. destruct S as (s' & H1 & H2). exists v, s'. split; auto. split; auto. split; auto.
  apply St_moved; auto.
Qed.

(** ** Objects: C08, C09, C10, C12 *)
Definition fn (dec : decryptor) (v : bytes) : bytes := match dec v with Ok w => w | _ => [] end.
Lemma total_fn : forall dec, total dec -> forall v, dec v = Ok (fn dec v).
Proof. intros dec T v. unfold fn. destruct (T v) as (w & ->). reflexivity. Qed.

Lemma read_object_text : forall file dec f s g t o r, wf file s -> (forall v, dec v = Ok (f v)) ->
  gap g -> obj_text t o -> may_follow o r -> rest s = g ++ t ++ r ->
  exists s', ReadObject file dec s = Ok ((map_strings f o, ENone), s') /\ moved file s s' r [].
Proof.
  intros file dec f s g t o r W Hf Hg Ht Hr E. eapply read_plain; eauto.
  rewrite P0_gap by auto. apply obj_text_reads; auto.
Qed.

Lemma map_strings_id : forall o, map_strings (fun v => v) o = o.
Proof.
  apply obj_rec; try reflexivity.
  - intros l H. simpl. f_equal. induction H as [|x l Hx Hl IH]; simpl; congruence.
  - intros d H. simpl. f_equal. induction d as [|[k v] d IH]; [reflexivity|]. simpl. inversion H; subst.
    simpl in *. rewrite IH by auto. congruence.
Qed.

Lemma read_object_text_plain : forall file s g t o r, wf file s ->
  gap g -> obj_text t o -> may_follow o r -> rest s = g ++ t ++ r ->
  exists s', ReadObject file no_decryptor s = Ok ((o, ENone), s') /\ moved file s s' r [].
Proof.
  intros file s g t o r W Hg Ht Hr E. destruct (read_object_text file no_decryptor (fun v => v) s g t o r) as (s' & H1 & H2); auto.
  rewrite map_strings_id in H1. eauto.
Qed.

(** dictionaries with repeated keys *)
Definition sets (kvs : list (bytes * obj)) (d : dict) : dict :=
  fold_left (fun d kv => dset (fst kv) (snd kv) d) kvs d.

Lemma read_items_dict_any : forall kvs t, read_items t (flatten kvs) -> forall acc c, closer c ->
  P_dict no_decryptor acc (t ++ c) = P_dict no_decryptor (sets kvs acc) c.
Proof.
  induction kvs as [|[k v] kvs IH]; intros t H acc c Hc.
  - inversion H as [g Hg|]; subst. rewrite !(P_dict_eq _ no_decent). rewrite P0_gap by auto. reflexivity.
  - simpl in H. inversion H as [|g t1 o r l Hg Ht HR Hi Hr Hs]; subst.
    inversion Hr as [|g' t2 o' r' l' Hg' Ht' HR' Hi' Hr' Hs']; subst.
    specialize (IH r' Hr' (dset k v acc) c Hc).
    rewrite (P_dict_eq _ no_decent). rewrite <- !app_assoc. rewrite P0_gap by auto.
    rewrite HR. 2:{ rewrite app_assoc. rewrite app_assoc. rewrite <- (app_assoc g').
                    eapply items_follow; eauto. }
    cbn [rbind]. rewrite P0_gap by auto. rewrite HR' by (eapply items_follow; eauto).
    cbn [rbind]. rewrite IH. unfold pthen.
    change (sets ((k, v) :: kvs) acc) with (sets kvs (dset k v acc)).
    destruct (P_dict no_decryptor (sets kvs (dset k v acc)) c) as [[a [r2 ms]]| |]; reflexivity.
Qed.

Lemma bseq_ok : forall a b, bseq a b = true <-> a = b.
Proof. exact bseq_eq. Qed.

Lemma sets_keys : forall kvs d x, In x (map fst (sets kvs d)) <-> In x (map fst kvs) \/ In x (map fst d).
Proof.
  induction kvs as [|[k v] kvs IH]; intros d x; simpl; [tauto|].
  change (sets ((k, v) :: kvs) d) with (sets kvs (dset k v d)). rewrite IH. unfold dset.
  rewrite (mset_keys bseq bseq_ok). intuition congruence.
Qed.
Lemma sets_nodup : forall kvs d, NoDup (map fst d) -> NoDup (map fst (sets kvs d)).
Proof.
  induction kvs as [|[k v] kvs IH]; intros d H; simpl; auto.
  apply IH. apply (mset_nodup bseq bseq_ok). auto.
Qed.
Lemma sets_skip : forall kvs d k, ~ In k (map fst kvs) -> dget k (sets kvs d) = dget k d.
Proof.
  induction kvs as [|[k' v'] kvs IH]; intros d k H; [reflexivity|].
  change (sets ((k', v') :: kvs) d) with (sets kvs (dset k' v' d)). rewrite IH by (simpl in H; tauto).
  apply (mget_mset_other bseq bseq_ok). simpl in H. intuition congruence.
Qed.
Lemma sets_app : forall a b d, sets (a ++ b) d = sets b (sets a d).
Proof. intros. unfold sets. apply fold_left_app. Qed.

Lemma sets_last : forall kvs k v, dget k (sets kvs []) = Some v <-> given_last k v kvs.
Proof.
  intros kvs k v. split.
  - induction kvs as [|[k' v'] kvs IH] using rev_ind; [discriminate|].
    rewrite sets_app. change (sets [(k', v')] (sets kvs [])) with (dset k' v' (sets kvs [])). intros H.
    destruct (bseq k k') eqn:E.
    + apply bseq_eq in E. subst k'. unfold dget, dset in H. rewrite (mget_mset_same bseq bseq_ok) in H.
      injection H as ->. exists kvs, []. split; auto. 
    + assert (N : k <> k') by (intros ->; rewrite (proj2 (bseq_eq k' k') eq_refl) in E; discriminate).
      unfold dget, dset in H. rewrite (mget_mset_other bseq bseq_ok) in H by auto.
      destruct (IH H) as (a & b & -> & Hb). exists a, (b ++ [(k', v')]). split.
      * rewrite <- app_assoc. reflexivity.
      * rewrite map_app, in_app_iff. simpl. intuition congruence.
  - intros (a & b & -> & H). rewrite sets_app.
    change (sets ((k, v) :: b) (sets a [])) with (sets b (dset k v (sets a []))).
    rewrite sets_skip by auto. apply (mget_mset_same bseq bseq_ok).
Qed.

Lemma map_dict_get : forall f d k v, dget k (map_dict f d) = Some v <->
  exists w, dget k d = Some w /\ v = map_strings f w.
Proof.
  intros f d k v. unfold dget, map_dict. induction d as [|[k' v'] d IH]; simpl.
  - split; [discriminate|intros (w & H & _); discriminate].
  - destruct (bseq k k'); auto. split.
    + intros H. injection H as <-. eauto.
    + intros (w & H & ->). injection H as ->. reflexivity.
Qed.
Lemma map_dict_keys : forall f d, map fst (map_dict f d) = map fst d.
Proof. intros f d. unfold map_dict. rewrite map_map. reflexivity. Qed.

Lemma read_dictionary_last : forall file dec f s g t kvs r, wf file s -> (forall v, dec v = Ok (f v)) ->
  gap g -> items t (flatten kvs) -> rest s = g ++ lit "<<" ++ t ++ lit ">>" ++ r ->
  exists d s', ReadObject file dec s = Ok ((ODict d, ENone), s') /\ moved file s s' r [] /\
    NoDup (map fst d) /\ (forall k, In k (map fst d) <-> In k (map fst kvs)) /\
    (forall k v, dget k d = Some v <-> exists w, given_last k w kvs /\ v = map_strings f w).
Proof.
  intros file dec f s g t kvs r W Hf Hg Ht E.
  assert (P : P0 (g ++ lit "<<" ++ t ++ lit ">>" ++ r) = Ok ((ODict (sets kvs []), ENone), (r, []))).
  { rewrite P0_gap by auto. change (lit "<<" ++ t ++ lit ">>" ++ r) with ("<"%byte :: "<"%byte :: t ++ lit ">>" ++ r).
    rewrite P0_open_dict. apply obj_items_read in Ht.
    rewrite (read_items_dict_any _ _ Ht).
    2:{ right. exists ">"%byte, (">"%byte :: r). split; [reflexivity|split; reflexivity]. }
    rewrite (P_dict_eq _ no_decent). change (lit ">>" ++ r) with (">"%byte :: ">"%byte :: r).
    rewrite P0_close_dict. reflexivity. }
  destruct (read_plain file dec f s _ _ _ _ W Hf E P) as (s' & H1 & H2).
  exists (map_dict f (sets kvs [])), s'. split; [exact H1|]. split; [exact H2|].
  rewrite map_dict_keys. split; [apply sets_nodup; constructor|]. split.
  - intros k. rewrite sets_keys. simpl. tauto.
  - intros k v. rewrite map_dict_get. split; intros (w & A & B); exists w; split; auto; apply sets_last; auto.
Qed.

Lemma read_cut : forall file dec f s g t o cs, wf file s -> (forall v, dec v = Ok (f v)) ->
  gap g -> cut_text t o cs -> rest s = g ++ t ->
  exists s', ReadObject file dec s = Ok ((map_strings f o, ENone), s') /\ moved file s s' [] (map cut_msg cs).
Proof.
  intros file dec f s g t o cs W Hf Hg Ht E. eapply read_plain; eauto.
  rewrite P0_gap by auto. apply cut_text_reads; auto.
Qed.

Lemma number_lookahead : forall t, number_text t -> exists v,
  (forall z, int_text t z -> - 2 ^ 53 <= z <= 2 ^ 53 -> num_int v = z /\ float_is v z) /\
  forall file dec s g r, wf file s -> total dec -> gap g -> ends_number r -> rest s = g ++ t ++ r ->
   ((forall n r', ~ ref_tail r n r') ->
      exists s', ReadObject file dec s = Ok ((ONum v, ENone), s') /\ moved file s s' r []) /\
   (forall n r', ref_tail r n r' ->
      exists s', ReadObject file dec s = Ok ((ORef (num_int v) (wrap64 n), ENone), s') /\ moved file s s' r' []).
Proof.
  intros t Ht. destruct (number_text_p t Ht) as (v & Hv). exists v. split.
  - intros z Hz HB. destruct (int_text_p t z [] Hz HB) as (v' & E & F & I & _); [left; auto|].
    rewrite Hv in E by (left; auto). injection E as ->. auto.
  - intros file dec s g r W T Hg He E. specialize (Hv r He). apply number_text_first in Ht. split.
    + intros Hr. eapply (read_plain file dec (fn dec) s _ r (ONum v) []); eauto using total_fn.
      rewrite P0_gap by auto. apply P_number; auto. apply ref_tail_spec; auto.
    + intros n r' Hr. eapply (read_plain file dec (fn dec) s _ r' (ORef (num_int v) (wrap64 n)) []); eauto using total_fn.
      rewrite P0_gap by auto. apply (P_ref _ _ r); auto.
Qed.

(** ** Anomalies: C11 *)
Lemma P0_str : forall l, P0 ("("%byte :: l) = (let '((v, r), ms) := p_str 1 l in Ok ((OStr v, ENone), (r, ms))).
Proof. intros l. rewrite (P_object_eq _ no_decent). simpl p_ws. cbv iota. simpl. destruct (p_str 1 l) as [[? ?] ?]. reflexivity. Qed.
Lemma P0_name : forall l, P0 ("/"%byte :: l) = (let '((v, r), ms) := p_name l in Ok ((OName v, ENone), (r, ms))).
Proof. intros l. rewrite (P_object_eq _ no_decent). reflexivity. Qed.

Lemma open_end_p : forall c w ms, open_end c w ms -> forall opn, 1 <= opn -> p_str opn c = ((w, []), ms) /\ solid c.
Proof.
  intros c w ms H. destruct H as [b N1 N2 N3 N4| | |a x w j Ha Hw Hj|a b x y w j Ha Hb Hw Hj]; intros opn Ho.
  - split.
    + rewrite p_str_cons. apply beq_neq in N1, N2. rewrite N1, N2. cbv zeta.
      destruct (beq b "("%byte).
      * destruct (opn + 1 =? 0) eqn:E; [apply Z.eqb_eq in E; lia|reflexivity].
      * destruct (opn =? 0) eqn:E; [apply Z.eqb_eq in E; lia|reflexivity].
    + exists b, []. split; auto. split; [apply no_octdigit; auto|apply beq_neq; auto].
  - split; [reflexivity|]. do 2 eexists. split; [reflexivity|split; reflexivity].
  - split; [reflexivity|]. do 2 eexists. split; [reflexivity|split; reflexivity].
  - split; [|do 2 eexists; split; [reflexivity|split; reflexivity]].
    rewrite p_str_cons. rewrite beq_refl. destruct (octal_eol _ _ Ha) as (-> & -> & ->).
    unfold oct. rewrite (oct1 _ _ Ha), (zb_value _ _ Hw), (str_msg_count _ _ Hj). reflexivity.
  - split; [|do 2 eexists; split; [reflexivity|split; reflexivity]].
    rewrite p_str_cons. rewrite beq_refl. destruct (octal_eol _ _ Ha) as (-> & -> & ->).
    destruct (octal_eol _ _ Hb) as (_ & _ & ->).
    unfold oct. rewrite (oct2 _ _ _ _ Ha Hb), (zb_value _ _ Hw), (str_msg_count _ _ Hj). reflexivity.
Qed.

Lemma read_open_string : forall file dec s g t v k c w ms, wf file s -> total dec -> gap g ->
  str_body t v k -> open_end c w ms -> rest s = g ++ "("%byte :: t ++ c ->
  exists s' u, dec (v ++ w) = Ok u /\ ReadObject file dec s = Ok ((OStr u, ENone), s') /\
    moved file s s' [] (repeat UnnecessaryEscapeString k ++ ms).
Proof.
  intros file dec s g t v k c w ms W T Hg Ht Hc E.
  destruct (open_end_p _ _ _ Hc 1) as [P SO]; [lia|].
  destruct (read_plain file dec (fn dec) s _ [] (OStr (v ++ w)) (esc_msgs k ++ ms) W (total_fn _ T) E) as (s' & H1 & H2).
  { rewrite P0_gap by auto. rewrite P0_str. rewrite (str_body_p _ _ _ Ht) by (auto; lia). rewrite P. reflexivity. }
  exists s', (fn dec (v ++ w)). split; [apply total_fn; auto|]. auto.
Qed.

Lemma read_invalid_octal : forall file dec s g t1 v1 k1 a b c x y z w j t2 v2 k2 r, wf file s -> total dec -> gap g ->
  str_body t1 v1 k1 -> octdigit a x -> octdigit b y -> octdigit c z -> (64 * x + 8 * y + z > 255)%nat ->
  bv w = Z.of_nat (8 * x + y) -> code_count (lit "\()") w j -> str_body t2 v2 k2 ->
  rest s = g ++ "("%byte :: t1 ++ "\"%byte :: a :: b :: c :: t2 ++ ")"%byte :: r ->
  exists s' u, dec (v1 ++ w :: c :: v2) = Ok u /\ ReadObject file dec s = Ok ((OStr u, ENone), s') /\
    moved file s s' r (repeat UnnecessaryEscapeString k1 ++ InvalidOctal ::
                       repeat UnnecessaryEscapeString j ++ repeat UnnecessaryEscapeString k2).
Proof.
  intros file dec s g t1 v1 k1 a b c x y z w j t2 v2 k2 r W T Hg H1 Ha Hb Hc Hx Hw Hj H2 E.
  destruct (read_plain file dec (fn dec) s _ r (OStr (v1 ++ w :: c :: v2))
     (esc_msgs k1 ++ InvalidOctal :: esc_msgs j ++ esc_msgs k2) W (total_fn _ T) E) as (s' & Q1 & Q2).
  { rewrite P0_gap by auto. rewrite P0_str. rewrite (str_body_p _ _ _ H1).
    2: lia. 2:{ do 2 eexists. split; [reflexivity|split; reflexivity]. }
    rewrite p_str_cons. rewrite beq_refl. destruct (octal_eol _ _ Ha) as (-> & -> & ->).
    destruct (octal_eol _ _ Hb) as (_ & _ & ->). destruct (octal_eol _ _ Hc) as (C1 & C2 & C3). rewrite C3.
    rewrite (oct3 _ _ _ _ _ _ Ha Hb Hc).
    destruct (Z.of_nat (64 * x + 8 * y + z) <=? 255) eqn:L; [apply Z.leb_le in L; lia|].
    unfold oct. rewrite (oct2 _ _ _ _ Ha Hb), (zb_value _ _ Hw), (str_msg_count _ _ Hj).
    assert (PL : str_body (c :: t2) (c :: v2) k2).
    { apply sb_plain; auto; intros ->; discriminate. }
    change (c :: t2 ++ ")"%byte :: r) with ((c :: t2) ++ ")"%byte :: r). rewrite (str_text_p _ _ _ _ PL).
    reflexivity. }
  exists s', (fn dec (v1 ++ w :: c :: v2)). split; [apply total_fn; auto|]. auto.
Qed.

Lemma hex_open_aux : forall t ds k, hex_digits t ds k ->
  (forall v, hex_pairs ds v -> p_hex None t = ((v, []), hex_msgs k ++ [UnclosedHexString])) /\
  (forall a x v, hexdigit a x -> hex_pairs (x :: ds) v ->
     p_hex (Some a) t = ((v, []), hex_msgs k ++ [UnclosedHexString])).
Proof.
  induction 1 as [|b t ds k Hb Ht IH|b t ds k Nh Nw Nc Ng Ht IH|b d t ds k Hd Ht IH].
  - split.
    + intros v Hv. inversion Hv; subst. reflexivity.
    + intros a x v Ha Hv. inversion Hv as [|x' w Hw| ]; subst. simpl. unfold hex_fin.
      rewrite (hex2_value a "0" x 0 w); auto.
      * left; reflexivity.
      * rewrite Hw. f_equal. lia.
  - destruct IH as [I1 I2].
    assert (E : forall c, p_hex c (b :: t) = p_hex c t).
    { intros c. rewrite p_hex_cons. rewrite (ws_not_comment _ Hb). rewrite (proj2 (is_ws_spec b) Hb). reflexivity. }
    split; intros; rewrite E; eauto.
  - destruct IH as [I1 I2].
    assert (E : forall c v, p_hex c t = ((v, []), hex_msgs k ++ [UnclosedHexString]) ->
                p_hex c (b :: t) = ((v, []), hex_msgs (S k) ++ [UnclosedHexString])).
    { intros c v E. rewrite p_hex_cons.
      apply beq_neq in Nc, Ng. rewrite Nc, Ng. rewrite (is_ws_false _ Nw). rewrite (no_hexdigit _ Nh).
      simpl negb. cbv iota. rewrite E. reflexivity. }
    split; intros; apply E; eauto.
  - destruct IH as [I1 I2].
    assert (HX : is_hex b = true) by (apply hexdigit_spec in Hd; tauto).
    destruct (hex_not_special _ HX) as (Q1 & Q2 & Q3).
    split.
    + intros v Hv. rewrite p_hex_cons. rewrite Q1, Q2, Q3, HX. simpl negb. cbv iota. eapply I2; eauto.
    + intros a x v Ha Hv. rewrite p_hex_cons. rewrite Q1, Q2, Q3, HX. simpl negb. cbv iota.
      inversion Hv as [| |x' y' w ds' v' Hw Hv']; subst.
      rewrite (I1 _ Hv'). rewrite (hex2_value _ _ _ _ _ Ha Hd Hw). reflexivity.
Qed.

Lemma P0_hex : forall l, (forall r, l <> "<"%byte :: r) ->
  P0 ("<"%byte :: l) = (let '((v, r), ms) := p_hex None l in Ok ((OStr v, ENone), (r, ms))).
Proof.
  intros l H. rewrite (P_object_eq _ no_decent). rewrite p_ws_id by reflexivity.
  change (beq "<"%byte "/"%byte) with false. change (beq "<"%byte "["%byte) with false.
  change (beq "<"%byte "]"%byte) with false. change (beq "<"%byte "("%byte) with false.
  change (beq "<"%byte ")"%byte) with false. cbv iota.
  assert (N1 : bseq (firstn 2 ("<"%byte :: l)) (lit "<<") = false).
  { destruct l as [|b l]; [reflexivity|]. destruct (bseq (firstn 2 ("<"%byte :: b :: l)) (lit "<<")) eqn:E; auto.
    apply bseq_eq in E. injection E as ->. exfalso. apply (H l). reflexivity. }
  assert (N2 : bseq (firstn 2 ("<"%byte :: l)) (lit ">>") = false) by (destruct l; reflexivity).
  rewrite N1, N2. change (beq "<"%byte "<"%byte) with true. cbv iota. unfold p_dec.
  destruct (p_hex None l) as [[? ?] ?]. reflexivity.
Qed.

Lemma read_open_hex : forall file dec s g t ds k v, wf file s -> total dec -> gap g ->
  hex_digits t ds k -> hex_pairs ds v -> (forall r, t <> "<"%byte :: r) -> rest s = g ++ "<"%byte :: t ->
  exists s' u, dec v = Ok u /\ ReadObject file dec s = Ok ((OStr u, ENone), s') /\
    moved file s s' [] (repeat InvalidHexStringChar k ++ [UnclosedHexString]).
Proof.
  intros file dec s g t ds k v W T Hg Ht Hv Hn E.
  destruct (read_plain file dec (fn dec) s _ [] (OStr v) (hex_msgs k ++ [UnclosedHexString]) W (total_fn _ T) E) as (s' & H1 & H2).
  { rewrite P0_gap by auto. rewrite P0_hex by auto. rewrite (proj1 (hex_open_aux _ _ _ Ht) _ Hv). reflexivity. }
  exists s', (fn dec v). split; [apply total_fn; auto|]. auto.
Qed.

Lemma name_body_pre : forall t v k l, name_body t v k ->
  p_name (t ++ l) = outs (name_msgs k) v (p_name l).
Proof.
  intros t v k l H. induction H as [|b t v k [R1 R2] Nb Ht IH|a b x y w t v j k Ha Hb Hw Hj Ht IH].
  - rewrite outs_nil. reflexivity.
  - change ((b :: t) ++ l) with (b :: (t ++ l)). rewrite p_name_cons.
    rewrite (is_delim_false _ R2), (is_ws_false _ R1). simpl orb. apply beq_neq in Nb. rewrite Nb.
    rewrite IH. rewrite outs_out. reflexivity.
  - change (("#"%byte :: a :: b :: t) ++ l) with ("#"%byte :: a :: b :: (t ++ l)). rewrite p_name_cons.
    change (is_delim "#"%byte || is_ws "#"%byte) with false. change (beq "#"%byte "#"%byte) with true. cbv iota.
    rewrite (proj1 (proj1 (hexdigit_spec a x) Ha)), (proj1 (proj1 (hexdigit_spec b y) Hb)).
    rewrite (hex2_value _ _ _ _ _ Ha Hb Hw), (name_msg_count _ _ Hj), IH, outs_out.
    unfold name_msgs. rewrite repeat_app. reflexivity.
Qed.

Lemma read_bad_name : forall file dec s g t v k r, wf file s -> total dec -> gap g ->
  name_body t v k -> bad_escape r -> rest s = g ++ "/"%byte :: t ++ r ->
  exists n s', ReadObject file dec s = Ok ((OName (v ++ n), ENone), s') /\ n <> [] /\
    exists ms, log s' = log s ++ repeat UnnecessaryEscapeName k ++ InvalidNameEscapeChar :: ms.
Proof.
  intros file dec s g t v k r W T Hg Ht Hr E.
  assert (X : exists n r' ms, p_name r = ((n, r'), InvalidNameEscapeChar :: ms) /\ n <> []).
  { destruct Hr as [c r Hc|a x c r Ha Hc].
    - rewrite p_name_cons. change (is_delim "#"%byte || is_ws "#"%byte) with false.
      change (beq "#"%byte "#"%byte) with true. cbv iota. rewrite (no_hexdigit _ Hc).
      destruct (p_name (c :: r)) as [[n r'] ms]. simpl. do 3 eexists. split; [reflexivity|discriminate].
    - rewrite p_name_cons. change (is_delim "#"%byte || is_ws "#"%byte) with false.
      change (beq "#"%byte "#"%byte) with true. cbv iota. rewrite (no_hexdigit _ Hc).
      rewrite (proj1 (proj1 (hexdigit_spec a x) Ha)).
      destruct (p_name (a :: c :: r)) as [[n r'] ms] eqn:EE.
      destruct (p_name (c :: r)) as [[n2 r2] ms2]. simpl. do 3 eexists. split; [reflexivity|discriminate]. }
  destruct X as (n & r' & ms & P & Nn).
  destruct (read_plain file dec (fn dec) s _ r' (OName (v ++ n)) (name_msgs k ++ InvalidNameEscapeChar :: ms) W (total_fn _ T) E) as (s' & H1 & H2).
  { rewrite P0_gap by auto. rewrite P0_name. rewrite (name_body_pre _ _ _ _ Ht). rewrite P. reflexivity. }
  exists n, s'. split; [exact H1|]. split; auto. destruct H2 as (_ & _ & _ & L). eauto.
Qed.

Lemma read_items_dict_tl : forall kvs tl t, read_items t (flatten kvs ++ tl) -> forall acc c, closer c ->
  exists t', read_items t' tl /\ P_dict no_decryptor acc (t ++ c) = P_dict no_decryptor (sets kvs acc) (t' ++ c).
Proof.
  induction kvs as [|[k v] kvs IH]; intros tl0 t H acc c Hc; [exists t; auto|].
  simpl in H. inversion H as [|g t1 o r l Hg Ht HR Hi Hr Hs]; subst.
  inversion Hr as [|g' t2 o' r' l' Hg' Ht' HR' Hi' Hr' Hs']; subst.
  destruct (IH _ r' Hr' (dset k v acc) c Hc) as (t' & T1 & T2). exists t'. split; auto.
  rewrite (P_dict_eq _ no_decent). rewrite <- !app_assoc. rewrite P0_gap by auto.
  rewrite HR. 2:{ rewrite app_assoc. rewrite app_assoc. rewrite <- (app_assoc g').
                  eapply items_follow; eauto. }
  cbn [rbind]. rewrite P0_gap by auto. rewrite HR' by (eapply items_follow; eauto).
  cbn [rbind]. rewrite T2. unfold pthen.
  change (sets ((k, v) :: kvs) acc) with (sets kvs (dset k v acc)).
  destruct (P_dict no_decryptor (sets kvs (dset k v acc)) (t' ++ c)) as [[a [r2 ms]]| |]; reflexivity.
Qed.

Lemma read_bad_key : forall file dec s g t kvs o l c, wf file s -> total dec -> gap g ->
  items t (flatten kvs ++ o :: l) -> (forall k, o <> OName k) ->
  (c = [] \/ exists b r, c = b :: r /\ delim_byte b /\ b <> "%"%byte) ->
  rest s = g ++ lit "<<" ++ t ++ c ->
  exists d s' ms, ReadObject file dec s = Ok ((ODict d, ENone), s') /\ wf file s' /\
    log s' = log s ++ InvalidDictionaryKeyType :: ms.
Proof.
  intros file dec s g t kvs o l c W T Hg Ht No Hc E.
  assert (CL : closer c).
  { destruct Hc as [->|(b & r & -> & D & N)]; [left; auto|]. right. exists b, r. split; auto. split.
    - apply is_delim_spec; auto.
    - apply beq_neq; auto. }
  apply obj_items_read in Ht. destruct (read_items_dict_tl kvs (o :: l) t Ht [] c CL) as (t' & T1 & T2).
  inversion T1 as [|g1 u o' r l' Hg1 Hu HR Hi Hr Hs]; subst.
  destruct (p_dict_total no_decryptor no_total (S (List.length (r ++ c))) (sets kvs []) (r ++ c)) as ([d [r' ms]] & X); [lia|].
  destruct (read_plain file dec (fn dec) s _ r' (ODict d) (InvalidDictionaryKeyType :: ms) W (total_fn _ T) E) as (s' & H1 & H2).
  { rewrite P0_gap by auto. change (lit "<<" ++ t ++ c) with ("<"%byte :: "<"%byte :: t ++ c).
    rewrite P0_open_dict, T2. rewrite <- !app_assoc. rewrite (P_dict_eq _ no_decent). rewrite P0_gap by auto.
    rewrite HR by (eapply items_follow; eauto). cbn [rbind].
    replace (match o with OName key => _ | _ => _ end)
      with (pthen ([] ++ [InvalidDictionaryKeyType]) (P_dict no_decryptor (sets kvs []) (r ++ c)) (fun x => x))
      by (destruct o; try reflexivity; exfalso; eapply No; reflexivity).
    unfold P_dict. rewrite X. reflexivity. }
  exists (map_dict (fn dec) d), s', ms. split; [exact H1|]. destruct H2 as (W' & _ & _ & L). auto.
Qed.

(** ** C07 *)
Lemma nmul_10_finite : forall i, 1 <= i -> 10 * i <= 2 ^ 53 -> exists m e, nmul (num_of_Z 10) (num_of_Z i) = SpecFloat.S754_finite false m e.
Proof.
  intros i H1 H2. destruct (rep_mul (num_of_Z 10) (num_of_Z i) 10 i) as (M & E & _ & _ & ->); try lia; eauto.
  - apply num_of_Z_rep. lia.
  - apply num_of_Z_rep. lia.
Qed.

Lemma num_frac_zero : forall v i, (v = num_zero \/ exists m e, v = SpecFloat.S754_finite false m e) -> 1 <= i -> 10 * i <= 2 ^ 53 ->
  num_frac v 0 i = v.
Proof.
  intros v i Hv H1 H2. unfold num_frac. destruct (nmul_10_finite i H1 H2) as (m & e & ->).
  destruct Hv as [->|(m' & e' & ->)]; reflexivity.
Qed.

Lemma p_num_real_zeros : forall n v i l, (v = num_zero \/ exists m e, v = SpecFloat.S754_finite false m e) ->
  1 <= i -> 10 * (i + Z.of_nat n) <= 2 ^ 53 -> no_digit l ->
  p_num_real i v (repeat "0"%byte n ++ l) = (v, l).
Proof.
  induction n as [|n IH]; intros v i l Hv Hi Hn Hl.
  - simpl. destruct l as [|b l]; [reflexivity|]. simpl in *. rewrite Hl. reflexivity.
  - cbn [repeat app p_num_real]. change (is_digit "0"%byte) with true. cbv iota.
    change (bv "0"%byte - 48) with 0. rewrite num_frac_zero by (auto; lia). apply IH; auto; lia.
Qed.

Lemma nat_text_zeros : forall t n k l, nat_text t n -> n <= 2 ^ 53 -> 10 * Z.of_nat (S k) <= 2 ^ 53 -> no_digit l ->
  p_num_body num_zero false (t ++ "."%byte :: repeat "0"%byte k ++ l) = (num_of_Z n, l).
Proof.
  intros t n k l H HB Hk Hl. pose proof (nat_text_nonneg _ _ H) as NN. destruct H as (ds & Hd & Hn & <-).
  unfold p_num_body. rewrite (p_num_int_text _ _ Hd) by reflexivity.
  cbn [p_num_int]. change (is_digit "."%byte) with false. change (beq "."%byte "."%byte) with true. cbv iota.
  change num_zero with (num_of_Z 0). rewrite (push_exact ds 0); try lia.
  2:{ eapply dec_digits_lt; eauto. } 2: exact HB.
  change (dec_from 0 ds) with (dec_value ds). apply p_num_real_zeros; auto; try lia.
  destruct (Z.eq_dec (dec_value ds) 0) as [->|N]; [left; reflexivity|right].
  destruct (num_of_Z_rep (dec_value ds)) as (M & E & _ & _ & ->); [lia|eauto].
Qed.

Lemma read_real_zeros : forall file s g sign t n k r, wf file s -> gap g ->
  (sign = [] \/ sign = ["+"%byte] \/ sign = ["-"%byte]) -> nat_text t n -> n <= 2 ^ 53 -> 10 * Z.of_nat (S k) <= 2 ^ 53 ->
  (forall b r', r = b :: r' -> forall d, ~ decdigit b d) ->
  rest s = g ++ sign ++ t ++ "."%byte :: repeat "0"%byte k ++ r ->
  exists v s', read_number s = (v, s') /\ float_is v (if bseq sign ["-"%byte] then - n else n) /\ moved file s s' r [].
Proof.
  intros file s g sign t n k r W Hg Hs Ht HB Hk Hr E.
  assert (ND : no_digit r).
  { destruct r as [|b r']; [exact I|]. simpl. destruct (is_digit b) eqn:D; auto. exfalso.
    apply (Hr b r' eq_refl (Z.to_nat (bv b - 48))). apply decdigit_spec. split; auto.
    unfold is_digit in D. apply andb_true_iff in D. destruct D as [D _]. apply Z.leb_le in D. lia. }
  destruct (read_number_sim file s (rest s) _ _ (wf_St _ _ W)) as (s' & H1 & H2).
  pose proof (nat_text_zeros t n k r Ht HB Hk ND) as B.
  assert (FZ : float_is (num_of_Z n) n).
  { destruct (int_text_p t n [] (it_plain _ _ Ht)) as (v & _ & F & _ & U); [split; [|auto]|left; auto|].
    - pose proof (nat_text_nonneg _ _ Ht). lia.
    - destruct (Z.eq_dec n 0) as [->|N]; [reflexivity|]. rewrite <- U; auto. }
  assert (Q : exists v, p_number (rest s) = (v, r) /\ float_is v (if bseq sign ["-"%byte] then - n else n)).
  { rewrite E. unfold p_number. rewrite gap_ws_app by auto.
    destruct (nat_text_cons _ _ Ht) as (b & d & t' & ds & Et & Hb & _).
    apply decdigit_spec in Hb. destruct Hb as [D _]. destruct (digit_not_ws _ D) as [D1 D2].
    destruct Hs as [-> | [-> | ->]]; cbn [app].
    - rewrite Et in *. cbn [app] in *. rewrite p_ws_id by auto.
      assert (beq b "-"%byte = false) as -> by (destruct b; try discriminate; reflexivity). rewrite D.
      exists (num_of_Z n). split; [|exact FZ]. unfold p_num_body in *. cbn [p_num_int] in B. rewrite D in B. exact B.
    - rewrite p_ws_id by reflexivity. change (beq "+"%byte "-"%byte) with false.
      change (is_digit "+"%byte) with false. change (beq "+"%byte "."%byte) with false.
      change (beq "+"%byte "+"%byte) with true. cbv iota. rewrite B. eauto.
    - rewrite p_ws_id by reflexivity. change (beq "-"%byte "-"%byte) with true. cbv iota. rewrite B.
      exists (num_neg (num_of_Z n)). split; auto. change (bseq ["-"%byte] ["-"%byte]) with true. cbv iota.
      unfold num_neg, SpecFloat.SFopp. unfold float_is in *. destruct (num_of_Z n) as [sg|sg| |sg m e]; try tauto; [lia|].
      destruct (0 <=? e); destruct sg; simpl negb; cbv iota in *; lia. }
  destruct Q as (v & Q & F). rewrite Q in *. exists v, s'. split; auto. split; auto.
  apply St_moved; auto. rewrite app_nil_r. auto.
Qed.

(** ** Forms used by the property theorems *)
Lemma reachable_wf : forall file,
  wf file (open_rd file) /\
  (forall s off, wf file s -> wf file (seek file off s)) /\
  (forall s off, wf file s -> 0 <= off -> pos (seek file off s) = off /\ rest (seek file off s) = zdrop off file).
Proof.
  intros file. split; [apply open_wf|]. split.
  - intros. apply seek_wf; auto.
  - intros s off W H. unfold seek. destruct (off <? 0) eqn:E; [apply Z.ltb_lt in E; lia|]. auto.
Qed.

Lemma object_same_outcome : forall dec, (forall v, dec v <> OutOfFuel) ->
  forall f1 f2 s1 s2, wf f1 s1 -> wf f2 s2 -> rest s1 = rest s2 ->
  same_outcome s1 s2 (ReadObject f1 dec s1) (ReadObject f2 dec s2).
Proof. intros dec D f1 f2 s1 s2 W1 W2 E. apply (gap_same_outcome dec D f1 f2 s1 s2 []); auto. constructor. Qed.

(** a single string token with a decryptor that returns for it *)
Lemma read_object_string : forall file dec s g t v k r w, wf file s -> gap g -> str_body t v k -> dec v = Ok w ->
  rest s = g ++ "("%byte :: t ++ ")"%byte :: r ->
  exists s', ReadObject file dec s = Ok ((OStr w, ENone), s') /\ moved file s s' r (repeat UnnecessaryEscapeString k).
Proof.
  intros file dec s g t v k r w W Hg Ht Hd E. pose proof (ReadObject_plain file dec s W) as S.
  assert (X : P_object dec (rest s) = Ok ((OStr w, ENone), (r, esc_msgs k))).
  { unfold P_object. cbn [p_object]. rewrite E. rewrite gap_ws_app by auto. rewrite p_ws_id by reflexivity.
    change (beq "("%byte "/"%byte) with false. change (beq "("%byte "["%byte) with false.
    change (beq "("%byte "]"%byte) with false. change (beq "("%byte "("%byte) with true. cbv iota.
    rewrite (str_text_p _ _ _ _ Ht). unfold p_dec. rewrite Hd. reflexivity. }
  rewrite X in S. destruct S as (s' & H1 & H2). exists s'. split; auto. apply St_moved; auto.
Qed.

Lemma read_object_hex : forall file dec s g t ds k v r w, wf file s -> gap g ->
  hex_digits t ds k -> hex_pairs ds v -> dec v = Ok w -> (forall t', t <> "<"%byte :: t') ->
  rest s = g ++ "<"%byte :: t ++ ">"%byte :: r ->
  exists s', ReadObject file dec s = Ok ((OStr w, ENone), s') /\ moved file s s' r (repeat InvalidHexStringChar k).
Proof.
  intros file dec s g t ds k v r w W Hg Ht Hv Hd Hn E. pose proof (ReadObject_plain file dec s W) as S.
  assert (X : P_object dec (rest s) = Ok ((OStr w, ENone), (r, hex_msgs k))).
  { unfold P_object. cbn [p_object]. rewrite E. rewrite gap_ws_app by auto. rewrite p_ws_id by reflexivity.
    change (beq "<"%byte "/"%byte) with false. change (beq "<"%byte "["%byte) with false.
    change (beq "<"%byte "]"%byte) with false. change (beq "<"%byte "("%byte) with false.
    change (beq "<"%byte ")"%byte) with false. cbv iota.
    assert (N1 : bseq (firstn 2 ("<"%byte :: t ++ ">"%byte :: r)) (lit "<<") = false).
    { destruct t as [|b t]; [reflexivity|]. simpl app.
      destruct (bseq (firstn 2 ("<"%byte :: b :: t ++ ">"%byte :: r)) (lit "<<")) eqn:Q; auto.
      apply bseq_eq in Q. injection Q as ->. exfalso. apply (Hn t). reflexivity. }
    assert (N2 : bseq (firstn 2 ("<"%byte :: t ++ ">"%byte :: r)) (lit ">>") = false) by (destruct t; reflexivity).
    rewrite N1, N2. change (beq "<"%byte "<"%byte) with true. cbv iota.
    rewrite (hex_text_p _ _ _ _ _ Ht Hv). unfold p_dec. rewrite Hd. reflexivity. }
  rewrite X in S. destruct S as (s' & H1 & H2). exists s'. split; auto. apply St_moved; auto.
Qed.

Lemma read_object_name : forall file dec s g t v k r, wf file s -> total dec -> gap g -> name_body t v k ->
  ends_token r -> rest s = g ++ "/"%byte :: t ++ r ->
  exists s', ReadObject file dec s = Ok ((OName v, ENone), s') /\ moved file s s' r (repeat UnnecessaryEscapeName k).
Proof.
  intros file dec s g t v k r W T Hg Ht He E.
  destruct (read_plain file dec (fn dec) s _ r (OName v) (name_msgs k) W (total_fn _ T) E) as (s' & H1 & H2).
  { rewrite P0_gap by auto. rewrite P0_name. rewrite (name_text_p _ _ _ _ Ht He). reflexivity. }
  eauto.
Qed.
