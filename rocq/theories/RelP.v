(** RelP.v -- the readers treat related reader states alike, for every relation
    between states that the operations of Reader.v respect.  Instances: equality
    up to the log (what is read does not depend on earlier messages), and
    invariants of a single state. *)
From Verif Require Import Base BaseP Msg Reader Num Lexer Obj ReadObj Stream.
From Coq Require Import Strings.String.

Section Rel.
  Variable file : bytes.
  Variable R : rd -> rd -> Prop.

  Record respects : Prop := {
    r_len : forall s t, R s t -> List.length (rest s) = List.length (rest t);
    r_pos : forall s t, R s t -> pos s = pos t;
    r_rb : forall s t, R s t -> fst (read_byte s) = fst (read_byte t) /\ R (snd (read_byte s)) (snd (read_byte t));
    r_ub : forall s t, R s t -> R (unread_byte s) (unread_byte t);
    r_le : forall m s t, R s t -> R (log_error m s) (log_error m t);
    r_pk : forall s t, R s t -> fst (peek2 s) = fst (peek2 t) /\ R (snd (peek2 s)) (snd (peek2 t));
    r_dc : forall s t n, R s t -> (n <= List.length (fst (peek2 s)))%nat ->
           R (discard n (snd (peek2 s))) (discard n (snd (peek2 t)));
    r_ru : forall s t n, (0 < n <= 9)%nat -> R s t -> fst (read_upto n s) = fst (read_upto n t) /\ R (snd (read_upto n s)) (snd (read_upto n t));
    r_sk : forall s0 s t, R s t -> (exists t0, R s0 t0) -> R (seek file (pos s0) s) (seek file (pos s0) t)
  }.

  Hypothesis HR : respects.

  Definition rel0 (f : rd -> rd) := forall s t, R s t -> R (f s) (f t).
  Definition rel1 {A} (f : rd -> A * rd) :=
    forall s t, R s t -> fst (f s) = fst (f t) /\ R (snd (f s)) (snd (f t)).
  Definition relx {A} (x y : res (A * rd)) : Prop :=
    match x, y with
    | Ok (a, s), Ok (b, t) => a = b /\ R s t
    | Panic, Panic => True
    | OutOfFuel, OutOfFuel => True
    | _, _ => False
    end.
  Definition relr {A} (f : rd -> res (A * rd)) := forall s t, R s t -> relx (f s) (f t).

  Ltac call L :=
    match type of L with
    | fst ?x = fst ?y /\ R (snd ?x) (snd ?y) =>
        let q := fresh "q" in pose proof L as q;
        let a := fresh "a" in let s' := fresh "s" in let b := fresh "b" in let t' := fresh "t" in
        destruct x as [a s']; destruct y as [b t'];
        cbn [fst snd] in q; destruct q as [? ?]; subst
    end.
  Ltac rb := match goal with H : R ?s ?t |- context [read_byte ?s] => call (r_rb HR s t H) end.
  Ltac len := match goal with H : R ?s ?t |- context [List.length (rest ?s)] => rewrite (r_len HR s t H) end.
  Ltac lcall K := match goal with H : R ?s ?t |- context [List.length (rest ?s)] =>
    rewrite (r_len HR s t H); let n := constr:(S (List.length (rest t))) in let L := K n in call (L s t H) end.
  Ltac fin := first [ split; [reflexivity|] | idtac ]; cbn [fst snd]; auto using (r_ub HR), (r_le HR).

  Lemma consume_comment_loop_rel : forall n, rel0 (consume_comment_loop n).
  Proof.
    induction n as [|n IH]; intros s t H; cbn [consume_comment_loop]; auto.
    rb. destruct b as [b|]; auto. destruct (beq b x0a); auto. destruct (beq b x0d); auto.
    rb. destruct b0 as [b0|]; auto. destruct (beq b0 x0a); fin.
  Qed.
  Lemma consume_comment_rel : rel0 consume_comment.
  Proof. intros s t H. unfold consume_comment. len. apply consume_comment_loop_rel; auto. Qed.

  Lemma consume_ws_loop_rel : forall n, rel0 (consume_ws_loop n).
  Proof.
    induction n as [|n IH]; intros s t H; cbn [consume_ws_loop]; auto.
    rb. destruct b as [b|]; auto. destruct (beq b "%"); [apply IH, consume_comment_rel; auto|].
    destruct (is_ws b); fin.
  Qed.
  Lemma consume_ws_rel : rel0 consume_ws.
  Proof. intros s t H. unfold consume_ws. len. apply consume_ws_loop_rel; auto. Qed.

  Ltac ws := match goal with H : R ?s ?t |- context [consume_ws ?s] =>
    let H' := fresh "H" in pose proof (consume_ws_rel s t H) as H';
    generalize dependent (consume_ws s); generalize dependent (consume_ws t); intros end.

  Lemma read_int_loop_rel : forall n v, rel1 (read_int_loop n v).
  Proof.
    induction n as [|n IH]; intros v s t H; cbn [read_int_loop]; [fin|].
    rb. destruct b as [b|]; [|fin]. destruct (is_digit b); [apply IH; auto|fin].
  Qed.
  Lemma read_int64_rel : rel1 read_int64.
  Proof.
    intros s t H. unfold read_int64. ws. rb. destruct b as [b|]; [|fin]. destruct (is_digit b); [|fin].
    lcall ltac:(fun n => constr:(read_int_loop_rel n (bv b - 48))). fin.
  Qed.
  Lemma read_int_rel : rel1 read_int.
  Proof. exact read_int64_rel. Qed.

  Lemma read_keyword_loop_rel : forall n acc, rel1 (read_keyword_loop n acc).
  Proof.
    induction n as [|n IH]; intros v s t H; cbn [read_keyword_loop]; [fin|].
    rb. destruct b as [b|]; [|fin]. destruct (is_ws b || is_delim b); [fin|apply IH; auto].
  Qed.
  Lemma read_keyword_rel : rel1 read_keyword.
  Proof. intros s t H. unfold read_keyword. ws. len. apply read_keyword_loop_rel; auto. Qed.

  Lemma read_object_header_rel : rel1 read_object_header.
  Proof.
    intros s t H. unfold read_object_header. call (read_int_rel s t H). destruct b as [n ok]. destruct ok; [|fin].
    call (read_int_rel _ _ H1). destruct b as [g ok]. destruct ok; [|fin].
    call (read_keyword_rel _ _ H2). fin.
  Qed.

  Lemma read_name_code_rel : rel1 read_name_code.
  Proof.
    intros s t H. unfold read_name_code. rb. destruct b as [b|]; [|fin]. destruct (is_hex b); [|fin].
    rb. destruct b0 as [c|]; [|fin]. destruct (is_hex c); fin.
  Qed.
  Lemma read_name_loop_rel : forall n acc, rel1 (read_name_loop n acc).
  Proof.
    induction n as [|n IH]; intros v s t H; cbn [read_name_loop]; [fin|].
    rb. destruct b as [b|]; [|fin]. destruct (is_delim b || is_ws b); [fin|]. destruct (beq b "#"); [|apply IH; auto].
    call (read_name_code_rel _ _ H1). apply IH. destruct (name_needless b0); fin.
  Qed.
  Lemma read_name_rel : rel1 read_name.
  Proof.
    intros s t H. unfold read_name. ws. rb. destruct b as [b|]; [|fin]. destruct (beq b "/"); [|fin].
    len. apply read_name_loop_rel; auto.
  Qed.

  Lemma read_hex_loop_rel : forall n c1 acc, rel1 (read_hex_loop n c1 acc).
  Proof.
    induction n as [|n IH]; intros c1 v s t H; cbn [read_hex_loop]; [fin|].
    ws. rb. destruct b as [b|]; [|fin]. destruct (beq b ">"); [fin|]. destruct (negb (is_hex b)); [apply IH; fin|].
    destruct c1; apply IH; auto.
  Qed.
  Lemma read_hex_raw_rel : rel1 read_hex_raw.
  Proof.
    intros s t H. unfold read_hex_raw. ws. rb. destruct b as [b|]; [|fin]. destruct (beq b "<"); [|fin].
    lcall ltac:(fun n => constr:(read_hex_loop_rel n None [])). fin.
  Qed.

  Lemma read_octal_loop_rel : forall n acc, rel1 (read_octal_loop n acc).
  Proof.
    induction n as [|n IH]; intros v s t H; cbn [read_octal_loop]; [fin|].
    rb. destruct b as [b|]; [|fin]. destruct (is_octal b); [apply IH; auto|fin].
  Qed.
  Lemma octal_byte_rel : forall code, rel1 (octal_byte code).
  Proof. intros code s t H. unfold octal_byte. destruct (octval code <=? 255); fin. Qed.
  Lemma read_string_loop_rel : forall n opn acc, rel1 (read_string_loop n opn acc).
  Proof.
    induction n as [|n IH]; intros opn v s t H; cbn [read_string_loop]; [fin|].
    rb. destruct b as [b|]; [|fin]. destruct (beq b "\").
    - rb. destruct b0 as [c|]; [|fin]. destruct (beq c x0a); [apply IH; auto|]. destruct (beq c x0d).
      + rb. destruct b0 as [d|]; [|fin]. apply IH. destruct (beq d x0a); fin.
      + destruct (is_octal (unescape c)); [|apply IH; auto].
        call (read_octal_loop_rel 2 [unescape c] _ _ H2). call (octal_byte_rel b0 _ _ H3).
        apply IH. destruct (string_needless b1); fin.
    - destruct (_ =? 0); [fin|apply IH; auto].
  Qed.
  Lemma read_string_raw_rel : rel1 read_string_raw.
  Proof.
    intros s t H. unfold read_string_raw. ws. rb. destruct b as [b|]; [|fin]. destruct (beq b "("); [|fin].
    lcall ltac:(fun n => constr:(read_string_loop_rel n 1 [])). fin.
  Qed.

  Lemma read_num_int_loop_rel : forall n v, rel1 (read_num_int_loop n v).
  Proof.
    induction n as [|n IH]; intros v s t H; cbn [read_num_int_loop]; [fin|].
    rb. destruct b as [b|]; [|fin]. destruct (is_digit b); [apply IH; auto|]. destruct (beq b "."); fin.
  Qed.
  Lemma read_num_real_loop_rel : forall n i v, rel1 (read_num_real_loop n i v).
  Proof.
    induction n as [|n IH]; intros i v s t H; cbn [read_num_real_loop]; [fin|].
    rb. destruct b as [b|]; [|fin]. destruct (is_digit b); [apply IH; auto|fin].
  Qed.
  Lemma read_number_rel : rel1 read_number.
  Proof.
    intros s t H. unfold read_number. ws. rb. destruct b as [b|]; [|fin].
    assert (Hb : forall v, rel1 (fun s1 => match read_num_int_loop (S (List.length (rest s1))) v s1 with
      | (v, true, s1) => read_num_real_loop (S (List.length (rest s1))) 1 v s1 | (v, false, s1) => (v, s1) end)).
    { intros v s3 t3 H4. cbv beta. lcall ltac:(fun n => constr:(read_num_int_loop_rel n v)).
      destruct b0 as [w real]. destruct real; [|fin]. len. apply read_num_real_loop_rel; auto. }
    cbv beta in Hb.
    match goal with H : R ?s ?t |- context [read_num_int_loop _ _ ?s] => rename H into HH; rename s into s3; rename t into t3 end.
    destruct (beq b "-"). { pose proof (Hb num_zero s3 t3 HH) as L. cbv beta in L. call L. fin. }
    destruct (is_digit b); [apply (Hb (num_push num_zero (bv b - 48)) s3 t3 HH)|].
    destruct (beq b "."); [len; apply read_num_real_loop_rel; auto|]. destruct (beq b "+"); [apply (Hb num_zero s3 t3 HH)|fin].
  Qed.

  Lemma read_string_rel : forall dec, relr (read_string dec).
  Proof.
    intros dec s t H. unfold read_string. call (read_string_raw_rel s t H). destruct b as [v|]; [|split; auto].
    destruct (dec v); simpl; auto.
  Qed.
  Lemma read_hex_string_rel : forall dec, relr (read_hex_string dec).
  Proof.
    intros dec s t H. unfold read_hex_string. call (read_hex_raw_rel s t H). destruct b as [v|]; [|split; auto].
    destruct (dec v); simpl; auto.
  Qed.

  Lemma read_num_or_ref_rel : rel1 (read_num_or_ref file).
  Proof.
    intros s t H. unfold read_num_or_ref. call (read_number_rel s t H). pose proof (r_pos HR _ _ H1) as P. rewrite <- P.
    call (read_int_rel _ _ H1). destruct b0 as [g ok]. destruct ok; [|split; [reflexivity|apply (r_sk HR); eauto]].
    call (read_keyword_rel _ _ H2). destruct (bseq b0 (lit "R")); [fin|]. split; [reflexivity|]. apply (r_sk HR); eauto.
  Qed.

  Lemma rbind_rel : forall A B (x y : res (A * rd)) (f g : A * rd -> res (B * rd)), relx x y ->
    (forall a s t, R s t -> relx (f (a, s)) (g (a, t))) -> relx (rbind x f) (rbind y g).
  Proof.
    intros A B x y f g H K. destruct x as [[a s]| |], y as [[b t]| |]; simpl in *; auto; try tauto.
    destruct H as [-> H]. auto.
  Qed.

  Lemma array_loop_rel : forall ro, relr ro -> forall n acc, relr (array_loop ro n acc).
  Proof.
    intros ro Hro. induction n as [|n IH]; intros acc s t H; cbn [array_loop]; [exact I|].
    eapply rbind_rel; [apply Hro; auto|]. intros [o e] s' t' H'. destruct e; try (apply IH; auto); split; auto. apply (r_le HR); auto.
  Qed.
  Lemma read_array_with_rel : forall ro, relr ro -> forall n, relr (read_array_with ro n).
  Proof.
    intros ro Hro n s t H. unfold read_array_with. ws. rb. destruct b as [b|]; [|split; auto].
    destruct (beq b "["); [apply array_loop_rel; auto|split; auto].
  Qed.
  Lemma dict_loop_rel : forall ro, relr ro -> forall n acc, relr (dict_loop ro n acc).
  Proof.
    intros ro Hro. induction n as [|n IH]; intros acc s t H; cbn [dict_loop]; [exact I|].
    eapply rbind_rel; [apply Hro; auto|]. intros [o e] s' t' H'.
    assert (G : relx (match o with
       | OName key => rbind (ro s') (fun '(v, e, s0) => match e with
          | EReadError | EEndOfDictionary => Ok (acc, log_error MissingDictionaryValue s0)
          | _ => dict_loop ro n (dset key v acc) s0 end)
       | _ => dict_loop ro n acc (log_error InvalidDictionaryKeyType s') end)
      (match o with
       | OName key => rbind (ro t') (fun '(v, e, s0) => match e with
          | EReadError | EEndOfDictionary => Ok (acc, log_error MissingDictionaryValue s0)
          | _ => dict_loop ro n (dset key v acc) s0 end)
       | _ => dict_loop ro n acc (log_error InvalidDictionaryKeyType t') end)).
    { destruct o; try (apply IH; apply (r_le HR); auto). eapply rbind_rel; [apply Hro; auto|].
      intros [v2 e2] s2 t2 H2. destruct e2; try (apply IH; auto); split; auto; apply (r_le HR); auto. }
    destruct e; try exact G; split; auto. apply (r_le HR); auto.
  Qed.
  Lemma read_dict_with_rel : forall ro, relr ro -> forall n, relr (read_dict_with ro n).
  Proof.
    intros ro Hro n s t H. unfold read_dict_with. ws.
    match goal with H : R ?s ?t |- context [read_upto 2 ?s] => call (r_ru HR s t 2%nat ltac:(lia) H) end.
    destruct b as [b|]; [|split; auto].
    destruct (bseq _ _); [apply dict_loop_rel; auto|split; auto].
  Qed.

  Lemma read_object_rel : forall fuel dec, relr (read_object fuel file dec).
  Proof.
    induction fuel as [|f IH]; intros dec s t H; cbn [read_object]; [exact I|].
    ws.
    match goal with H : R ?s ?t |- context [peek2 ?s] =>
      pose proof (fun n => r_dc HR s t n H) as D; pose proof (r_pk HR s t H) as PK;
      destruct (peek2 s) as [b s1]; destruct (peek2 t) as [b' t1]; cbn [fst snd] in D, PK end.
    destruct PK as [<- K]. destruct b as [|b0 bs]; [split; auto|].
    destruct (beq b0 "/"). { call (read_name_rel _ _ K). split; auto. }
    destruct (beq b0 "[").
    { eapply rbind_rel; [apply read_array_with_rel; auto|]. intros; split; auto. }
    destruct (beq b0 "]"). { split; auto. apply D. simpl; lia. }
    destruct (beq b0 "("). { eapply rbind_rel; [apply read_string_rel; auto|]. intros; split; auto. }
    destruct (beq b0 ")"). { split; auto. apply D. simpl; lia. }
    destruct (bseq (b0 :: bs) (lit "<<")).
    { eapply rbind_rel; [apply read_dict_with_rel; auto|]. intros; split; auto. }
    destruct (bseq (b0 :: bs) (lit ">>")) eqn:E.
    { split; auto. apply D. apply bseq_eq in E. rewrite E. simpl; lia. }
    destruct (beq b0 "<"). { eapply rbind_rel; [apply read_hex_string_rel; auto|]. intros; split; auto. }
    destruct (beq b0 ">"). { split; auto. apply D. simpl; lia. }
    destruct (_ || _). { call (read_num_or_ref_rel _ _ K). split; auto. }
    call (read_keyword_rel _ _ K). split; auto.
  Qed.

  Lemma enough_rel : forall s t, R s t -> enough s = enough t.
  Proof. intros s t H. unfold enough. rewrite (r_len HR s t H). reflexivity. Qed.
  Lemma ReadObject_rel : forall dec, relr (ReadObject file dec).
  Proof. intros dec s t H. unfold ReadObject. rewrite (enough_rel s t H). apply read_object_rel; auto. Qed.
  Lemma ReadArray_rel : forall dec, relr (ReadArray file dec).
  Proof. intros dec s t H. unfold ReadArray. rewrite (enough_rel s t H). apply read_array_with_rel; auto. apply read_object_rel. Qed.
  Lemma ReadDictionary_rel : forall dec, relr (ReadDictionary file dec).
  Proof. intros dec s t H. unfold ReadDictionary. rewrite (enough_rel s t H). apply read_dict_with_rel; auto. apply read_object_rel. Qed.
  Lemma ReadCommand_rel : relr (ReadCommand file).
  Proof.
    intros s t H. unfold ReadCommand. rewrite (enough_rel s t H). generalize (enough t) ([] : list obj). intros n; revert s t H.
    induction n as [|n IH]; intros s t H ops; cbn [read_command_loop]; [exact I|].
    eapply rbind_rel; [apply ReadObject_rel; auto|]. intros [o e] s' t' H'. destruct e; try (split; auto; fail).
    destruct o; auto. split; auto.
  Qed.

  Lemma skip_eol_loop_rel : forall n, rel1 (skip_eol_loop n).
  Proof.
    induction n as [|n IH]; intros s t H; cbn [skip_eol_loop]; [fin|].
    rb. destruct b as [b|]; [|fin]. destruct (beq b x0a); [fin|]. destruct (beq b x0d); [|apply IH; auto].
    rb. destruct b0 as [c|]; [|fin]. destruct (beq c x0a); fin.
  Qed.
  Lemma stream_loop_rel : forall n endb acc, rel1 (stream_loop n endb acc).
  Proof.
    induction n as [|n IH]; intros endb acc s t H; cbn [stream_loop]; [fin|].
    destruct (bseq endb (lit "endstream")); [fin|]. destruct endb as [|b e]; [fin|].
    rb. destruct b0 as [c|]; [apply IH; auto|fin].
  Qed.
  Lemma read_stream_raw_rel : rel1 read_stream_raw.
  Proof.
    intros s t H. unfold read_stream_raw. lcall ltac:(fun n => constr:(skip_eol_loop_rel n)).
    destruct b; [|fin]. match goal with H : R ?s ?t |- context [read_upto 9 ?s] => call (r_ru HR s t 9%nat ltac:(lia) H) end.
    lcall ltac:(fun n => constr:(stream_loop_rel n (match b with Some b => b | None => [] end) [])). fin.
  Qed.
End Rel.
