(** PObjP.v -- fuel-free equations for the plain object reader, and the
    transfer from the buffered reader. *)
From Verif Require Import Base BaseP Msg Reader ReaderP Num Lexer Obj ReadObj Plain LexerP ReadObjP.
From Coq Require Import Strings.String.

Section Ext.
  Variables ro1 ro2 : bytes -> pres (obj * oerr).
  Variable bound : nat.
  Hypothesis ext : forall l, (List.length l < bound)%nat -> ro1 l = ro2 l.
  Hypothesis fin : forall l, (List.length l < bound)%nat -> finish l (ro1 l).

  Lemma p_array_ext : forall n1 n2 acc l,
    (List.length l < n1)%nat -> (List.length l < n2)%nat -> (List.length l < bound)%nat ->
    p_array ro1 n1 acc l = p_array ro2 n2 acc l.
  Proof.
    induction n1 as [|n1 IH]; intros n2 acc l H1 H2 Hb; [lia|].
    destruct n2 as [|n2]; [lia|]. simpl. rewrite <- (ext l Hb).
    pose proof (fin l Hb) as F. unfold finish in F.
    destruct (ro1 l) as [[[o e] [r ms]]| |]; simpl; auto.
    destruct e; auto; rewrite (IH n2); auto; lia.
  Qed.

  Lemma p_dict_ext : forall n1 n2 acc l,
    (List.length l < n1)%nat -> (List.length l < n2)%nat -> (List.length l < bound)%nat ->
    p_dict ro1 n1 acc l = p_dict ro2 n2 acc l.
  Proof.
    induction n1 as [|n1 IH]; intros n2 acc l H1 H2 Hb; [lia|].
    destruct n2 as [|n2]; [lia|]. simpl. rewrite <- (ext l Hb).
    pose proof (fin l Hb) as F. unfold finish in F.
    destruct (ro1 l) as [[[o e] [r ms]]| |]; simpl; auto.
    assert (C : (List.length r < List.length l)%nat ->
      match o with
      | OName key =>
          rbind (ro1 r) (fun '((v, e), (r, ms2)) =>
            match e with
            | EReadError | EEndOfDictionary => Ok (acc, (r, (ms ++ ms2) ++ [MissingDictionaryValue]))
            | _ => pthen (ms ++ ms2) (p_dict ro1 n1 (dset key v acc) r) (fun x => x)
            end)
      | _ => pthen (ms ++ [InvalidDictionaryKeyType]) (p_dict ro1 n1 acc r) (fun x => x)
      end =
      match o with
      | OName key =>
          rbind (ro2 r) (fun '((v, e), (r, ms2)) =>
            match e with
            | EReadError | EEndOfDictionary => Ok (acc, (r, (ms ++ ms2) ++ [MissingDictionaryValue]))
            | _ => pthen (ms ++ ms2) (p_dict ro2 n2 (dset key v acc) r) (fun x => x)
            end)
      | _ => pthen (ms ++ [InvalidDictionaryKeyType]) (p_dict ro2 n2 acc r) (fun x => x)
      end).
    { intros Hr. destruct o; try (rewrite (IH n2); auto; lia).
      assert (Hb2 : (List.length r < bound)%nat) by lia.
      rewrite <- (ext r Hb2). pose proof (fin r Hb2) as F2. unfold finish in F2.
      destruct (ro1 r) as [[[v2 e2] [r2 ms2]]| |]; simpl; auto.
      destruct e2; auto; rewrite (IH n2); auto; lia. }
    destruct e; auto.
  Qed.
End Ext.

Lemma p_object_fuel : forall dec, decent dec -> forall f1 f2 l,
  (List.length l < f1)%nat -> (List.length l < f2)%nat -> p_object f1 dec l = p_object f2 dec l.
Proof.
  intros dec D. induction f1 as [|f1 IH]; intros f2 l H1 H2; [lia|].
  destruct f2 as [|f2]; [lia|]. cbn [p_object].
  pose proof (proj1 (p_ws_len l)) as HL.
  destruct (p_ws l) as [|b0 r] eqn:EW; auto. simpl in HL.
  assert (X : forall l0, (List.length l0 < List.length l)%nat -> p_object f1 dec l0 = p_object f2 dec l0).
  { intros l0 Hl. apply IH; lia. }
  assert (Y : forall l0, (List.length l0 < List.length l)%nat -> finish l0 (p_object f1 dec l0)).
  { intros l0 Hl. apply p_object_finish; auto; lia. }
  destruct (beq b0 "/"%byte); auto.
  destruct (beq b0 "["%byte).
  { rewrite (p_array_ext _ _ _ X Y f1 f2); auto; lia. }
  destruct (beq b0 "]"%byte); auto. destruct (beq b0 "("%byte); auto. destruct (beq b0 ")"%byte); auto.
  destruct (bseq (firstn 2 (b0 :: r)) (lit "<<")); auto.
  assert (HT : (List.length (tl r) <= List.length r)%nat) by (destruct r; simpl; lia).
  rewrite (p_dict_ext _ _ _ X Y f1 f2); auto; lia.
Qed.

(** The plain readers with the fuel that suffices. *)
Definition P_object (dec : decryptor) (l : bytes) : pres (obj * oerr) := p_object (S (List.length l)) dec l.
Definition P_array (dec : decryptor) (acc : list obj) (l : bytes) : pres (list obj) :=
  p_array (P_object dec) (S (List.length l)) acc l.
Definition P_dict (dec : decryptor) (acc : dict) (l : bytes) : pres dict :=
  p_dict (P_object dec) (S (List.length l)) acc l.

Lemma P_finish : forall dec, decent dec -> forall l, finish l (P_object dec l).
Proof. intros dec D l. apply p_object_finish; auto. Qed.

Lemma P_object_eq : forall dec, decent dec -> forall l, P_object dec l =
  match p_ws l with
  | [] => Ok ((KEYWORD_NULL, EReadError), ([], []))
  | b0 :: r =>
      if beq b0 "/"%byte then let '((v, r), ms) := p_name r in Ok ((OName v, ENone), (r, ms))
      else if beq b0 "["%byte then pthen [] (P_array dec [] r) (fun x => (OArr x, ENone))
      else if beq b0 "]"%byte then Ok ((KEYWORD_NULL, EEndOfArray), (r, []))
      else if beq b0 "("%byte then p_dec dec (p_str 1 r)
      else if beq b0 ")"%byte then Ok ((KEYWORD_NULL, EEndOfString), (r, []))
      else if bseq (firstn 2 (b0 :: r)) (lit "<<") then
        pthen [] (P_dict dec [] (tl r)) (fun x => (ODict x, ENone))
      else if bseq (firstn 2 (b0 :: r)) (lit ">>") then Ok ((KEYWORD_NULL, EEndOfDictionary), (tl r, []))
      else if beq b0 "<"%byte then p_dec dec (p_hex None r)
      else if beq b0 ">"%byte then Ok ((KEYWORD_NULL, EEndOfHexString), (r, []))
      else if is_digit b0 || beq b0 "+"%byte || beq b0 "-"%byte || beq b0 "."%byte then
        let '(o, r) := p_num_or_ref (b0 :: r) in Ok ((o, ENone), (r, []))
      else let '(v, r) := p_kw (b0 :: r) in Ok ((OKw v, ENone), (r, []))
  end.
Proof.
  intros dec D l. unfold P_object at 1. cbn [p_object].
  pose proof (proj1 (p_ws_len l)) as HL.
  destruct (p_ws l) as [|b0 r] eqn:EW; auto. simpl in HL.
  assert (X : forall l0, (List.length l0 < List.length l)%nat ->
               p_object (List.length l) dec l0 = P_object dec l0).
  { intros l0 Hl. apply p_object_fuel; auto; lia. }
  assert (Y : forall l0, (List.length l0 < List.length l)%nat -> finish l0 (p_object (List.length l) dec l0)).
  { intros l0 Hl. apply p_object_finish; auto; lia. }
  destruct (beq b0 "/"%byte); auto.
  destruct (beq b0 "["%byte).
  { unfold P_array. rewrite (p_array_ext _ _ _ X Y _ (S (List.length r))); auto; lia. }
  destruct (beq b0 "]"%byte); auto. destruct (beq b0 "("%byte); auto. destruct (beq b0 ")"%byte); auto.
  destruct (bseq (firstn 2 (b0 :: r)) (lit "<<")); auto.
  assert (HT : (List.length (tl r) <= List.length r)%nat) by (destruct r; simpl; lia).
  unfold P_dict. rewrite (p_dict_ext _ _ _ X Y _ (S (List.length (tl r)))); auto; lia.
Qed.

Lemma P_array_eq : forall dec, decent dec -> forall acc l, P_array dec acc l =
  rbind (P_object dec l) (fun '((o, e), (r, ms)) =>
    match e with
    | EReadError => Ok (acc, (r, ms ++ [UnclosedArray]))
    | EEndOfArray => Ok (acc, (r, ms))
    | _ => pthen ms (P_array dec (acc ++ [o]) r) (fun x => x)
    end).
Proof.
  intros dec D acc l. unfold P_array at 1. simpl.
  pose proof (P_finish dec D l) as F. unfold finish in F.
  destruct (P_object dec l) as [[[o e] [r ms]]| |]; simpl; auto.
  assert (Y : forall l0, (List.length l0 < S (List.length l))%nat -> finish l0 (P_object dec l0)).
  { intros. apply P_finish; auto. }
  destruct e; auto; unfold P_array;
    rewrite (p_array_ext (P_object dec) (P_object dec) _ (fun _ _ => eq_refl) Y _ (S (List.length r))); auto; lia.
Qed.

Lemma P_dict_eq : forall dec, decent dec -> forall acc l, P_dict dec acc l =
  rbind (P_object dec l) (fun '((o, e), (r, ms)) =>
    match e with
    | EReadError => Ok (acc, (r, ms ++ [UnclosedDictionary]))
    | EEndOfDictionary => Ok (acc, (r, ms))
    | _ =>
        match o with
        | OName key =>
            rbind (P_object dec r) (fun '((v, e), (r, ms2)) =>
              match e with
              | EReadError | EEndOfDictionary =>
                  Ok (acc, (r, (ms ++ ms2) ++ [MissingDictionaryValue]))
              | _ => pthen (ms ++ ms2) (P_dict dec (dset key v acc) r) (fun x => x)
              end)
        | _ => pthen (ms ++ [InvalidDictionaryKeyType]) (P_dict dec acc r) (fun x => x)
        end
    end).
Proof.
  intros dec D acc l. unfold P_dict at 1. cbn [p_dict].
  pose proof (P_finish dec D l) as F. unfold finish in F.
  destruct (P_object dec l) as [[[o e] [r ms]]| |]; simpl; auto.
  assert (Y : forall l0, (List.length l0 < S (List.length l))%nat -> finish l0 (P_object dec l0)).
  { intros. apply P_finish; auto. }
  assert (E : forall acc1 r1, (List.length r1 < List.length l)%nat ->
     p_dict (P_object dec) (List.length l) acc1 r1 = P_dict dec acc1 r1).
  { intros acc1 r1 Hr. unfold P_dict.
    rewrite (p_dict_ext (P_object dec) (P_object dec) _ (fun _ _ => eq_refl) Y _ (S (List.length r1))); auto; lia. }
  assert (C : (List.length r < List.length l)%nat ->
      match o with
      | OName key =>
          rbind (P_object dec r) (fun '((v, e), (r, ms2)) =>
            match e with
            | EReadError | EEndOfDictionary => Ok (acc, (r, (ms ++ ms2) ++ [MissingDictionaryValue]))
            | _ => pthen (ms ++ ms2) (p_dict (P_object dec) (List.length l) (dset key v acc) r) (fun x => x)
            end)
      | _ => pthen (ms ++ [InvalidDictionaryKeyType]) (p_dict (P_object dec) (List.length l) acc r) (fun x => x)
      end =
      match o with
      | OName key =>
          rbind (P_object dec r) (fun '((v, e), (r, ms2)) =>
            match e with
            | EReadError | EEndOfDictionary => Ok (acc, (r, (ms ++ ms2) ++ [MissingDictionaryValue]))
            | _ => pthen (ms ++ ms2) (P_dict dec (dset key v acc) r) (fun x => x)
            end)
      | _ => pthen (ms ++ [InvalidDictionaryKeyType]) (P_dict dec acc r) (fun x => x)
      end).
  { intros Hr. destruct o; try (rewrite E by lia; reflexivity).
    pose proof (P_finish dec D r) as F2. unfold finish in F2.
    destruct (P_object dec r) as [[[v2 e2] [r2 ms2]]| |]; simpl; auto.
    destruct e2; auto; rewrite E by lia; reflexivity. }
  destruct e; auto.
Qed.

(** ** Panics come from the decryptor only *)
Definition calm (dec : decryptor) : Prop := forall v, dec v <> Panic.

Lemma p_object_calm : forall dec, calm dec -> forall f l, p_object f dec l <> Panic.
Proof.
  intros dec C. induction f as [|f IH]; intros l; [discriminate|]. cbn [p_object].
  destruct (p_ws l) as [|b0 r]; [discriminate|].
  assert (PD : forall x, p_dec dec x <> Panic).
  { intros [[v r'] ms]. unfold p_dec. specialize (C v). destruct (dec v); simpl; congruence. }
  assert (PA : forall n acc l, p_array (p_object f dec) n acc l <> Panic).
  { induction n as [|n IHn]; intros acc l0; simpl; [discriminate|].
    specialize (IH l0). destruct (p_object f dec l0) as [[[o e] [r0 ms]]| |]; simpl; try congruence.
    assert (K : pthen ms (p_array (p_object f dec) n (acc ++ [o]) r0) (fun x => x) <> Panic).
    { specialize (IHn (acc ++ [o]) r0). unfold pthen.
      destruct (p_array (p_object f dec) n (acc ++ [o]) r0) as [[a [r1 ms1]]| |]; simpl; congruence. }
    destruct e; try exact K; discriminate. }
  assert (PT : forall n acc l, p_dict (p_object f dec) n acc l <> Panic).
  { induction n as [|n IHn]; intros acc l0; simpl; [discriminate|].
    pose proof (IH l0). destruct (p_object f dec l0) as [[[o e] [r0 ms]]| |]; simpl; try congruence.
    assert (K : forall ms acc r0, pthen ms (p_dict (p_object f dec) n acc r0) (fun x => x) <> Panic).
    { intros ms1 acc1 r1. specialize (IHn acc1 r1). unfold pthen.
      destruct (p_dict (p_object f dec) n acc1 r1) as [[a [r2 ms2]]| |]; simpl; congruence. }
    assert (KK : match o with
      | OName key =>
          rbind (p_object f dec r0) (fun '((v, e), (r, ms2)) =>
            match e with
            | EReadError | EEndOfDictionary => Ok (acc, (r, (ms ++ ms2) ++ [MissingDictionaryValue]))
            | _ => pthen (ms ++ ms2) (p_dict (p_object f dec) n (dset key v acc) r) (fun x => x)
            end)
      | _ => pthen (ms ++ [InvalidDictionaryKeyType]) (p_dict (p_object f dec) n acc r0) (fun x => x)
      end <> Panic).
    { destruct o; try apply K. pose proof (IH r0).
      destruct (p_object f dec r0) as [[[v2 e2] [r2 ms2]]| |]; simpl; try congruence.
      destruct e2; try apply K; discriminate. }
    destruct e; try exact KK; discriminate. }
  destruct (beq b0 "/"%byte); [destruct (p_name r) as [[? ?] ?]; discriminate|].
  destruct (beq b0 "["%byte).
  { specialize (PA f [] r). unfold pthen. destruct (p_array (p_object f dec) f [] r) as [[? [? ?]]| |]; simpl; congruence. }
  destruct (beq b0 "]"%byte); [discriminate|]. destruct (beq b0 "("%byte); [apply PD|].
  destruct (beq b0 ")"%byte); [discriminate|].
  destruct (bseq (firstn 2 (b0 :: r)) (lit "<<")).
  { specialize (PT f [] (tl r)). unfold pthen. destruct (p_dict (p_object f dec) f [] (tl r)) as [[? [? ?]]| |]; simpl; congruence. }
  destruct (bseq (firstn 2 (b0 :: r)) (lit ">>")); [discriminate|].
  destruct (beq b0 "<"%byte); [apply PD|]. destruct (beq b0 ">"%byte); [discriminate|].
  destruct (is_digit b0 || beq b0 "+"%byte || beq b0 "-"%byte || beq b0 "."%byte).
  - destruct (p_num_or_ref (b0 :: r)); discriminate.
  - destruct (p_kw (b0 :: r)); discriminate.
Qed.

(** ** Transfer: the exported readers compute the plain ones *)
Lemma wf_St : forall file s, wf file s -> St file s (rest s) (pos s + zlen (rest s)) (log s).
Proof. intros file s H. split; [exact H|]. auto. Qed.

Lemma ReadObject_plain : forall file dec s, wf file s ->
  sim file (pos s + zlen (rest s)) (log s) (ReadObject file dec s) (P_object dec (rest s)).
Proof. intros file dec s H. apply read_object_sim. apply wf_St. exact H. Qed.

Lemma ReadArray_plain : forall file dec s r, wf file s -> decent dec -> p_ws (rest s) = "["%byte :: r ->
  sim file (pos s + zlen (rest s)) (log s) (ReadArray file dec s) (P_array dec [] r).
Proof.
  intros file dec s r H D E. unfold ReadArray, read_array_with.
  pose proof (ws_sim _ _ _ _ _ (wf_St _ _ H)) as S1. rewrite E in S1.
  destruct (rb_cons _ _ _ _ _ _ S1) as (s1 & -> & H1 & _). rewrite beq_refl.
  pose proof (proj1 (p_ws_len (rest s))) as L. rewrite E in L. simpl in L.
  replace (P_array dec [] r) with (p_array (p_object (enough s) dec) (enough s) [] r).
  - apply array_loop_sim; auto. intros. apply read_object_sim; auto.
  - unfold P_array, enough.
    apply (p_array_ext _ _ (S (List.length (rest s)))); try lia.
    + intros. apply p_object_fuel; auto; lia.
    + intros. apply p_object_finish; auto.
Qed.
