(** ErrorsP.v -- errors.txt lists what the objects in use call for. *)
From Verif Require Import Base BaseP Msg Reader ReaderP Num NumP Lexer LexerP Obj ReadObj Plain ReadObjP PObjP Env Getters Crypt Stream GetObj
  Font Page Tree Output Render Extract Load Parse RelP GetObjP SpecRead ReadP FetchP SpecFetch SpecLex SpecLexP SpecObj SpecNumP SpecObjP SpecStream StreamP
  SpecLook SpecOut OutP SpecRaw RawP StreamObjP OrderP SpecTolerant TolerantP SpecErrors AlongP LoadInvP LoadMonoP TextP Errors.
From Coq Require Import Strings.String Sorting.Permutation.
Delimit Scope m_scope with m.

(** ** Headers *)
Definition p_head (l : bytes) : option bytes :=
  let '((_, ok), r1) := p_int l in
  if ok : bool then
    let '((_, ok), r2) := p_int r1 in
    if ok : bool then Some (snd (p_keyword r2))
    else match p_ws r1 with [] => None | _ => Some r2 end
  else match p_ws l with [] => None | _ => Some r1 end.

Lemma p_int_fail : forall l b r, p_ws l = b :: r -> is_digit b = false -> p_int l = ((0, false), b :: r).
Proof. intros l b r H D. unfold p_int. rewrite H, D. reflexivity. Qed.
Lemma start_ws : forall g b u, gap g -> token_start b -> p_ws (g ++ b :: u) = b :: u.
Proof.
  intros g b u G [W P]. rewrite gap_ws_app by auto. apply p_ws_id.
  - destruct (beq b "%"%byte) eqn:Q; auto. apply beq_eq in Q. contradiction.
  - destruct (is_ws b) eqn:Q; auto. apply is_ws_spec in Q. contradiction.
Qed.
Lemma not_digit_is : forall b, not_digit b <-> is_digit b = false.
Proof.
  intros b. unfold not_digit. rewrite digit_in. destruct (is_digit b); split; intros; auto; try discriminate. exfalso; auto.
Qed.
Lemma start_of : forall l b r, p_ws l = b :: r -> token_start b.
Proof.
  intros l b r H. destruct (p_ws_cons _ _ _ H) as [P W]. split.
  - intros Q. apply is_ws_spec in Q. congruence.
  - intros ->. discriminate.
Qed.
Lemma ends_no_digit : forall r, ends_token r -> no_digit r.
Proof.
  intros r [->|(b & r' & -> & H)]; [exact I|]. simpl. destruct (is_digit b) eqn:D; auto. destruct (digit_not_ws _ D) as [_ W].
  destruct H as [H|H]; [apply is_ws_spec in H; congruence|]. apply is_delim_spec in H. destruct b; discriminate.
Qed.
Lemma blank_no_digit : forall t, blank t -> no_digit t.
Proof. intros t [g G|g c G C]; [rewrite <- (app_nil_r g); apply gap_no_digit; simpl; auto|apply gap_no_digit; auto; reflexivity]. Qed.

Lemma head_in_p : forall t r, head_in t r -> p_head t = Some r.
Proof.
  intros t r H. unfold p_head. destruct H as [g b u G T N|g a n g' b u G A G' T N|g a n g' c m g'' k r G A G' N' C G'' K Er F Z|g a n g' c m t G A G' N' C B].
  - rewrite (p_int_fail _ b u); [|apply start_ws; auto|apply not_digit_is; auto]. rewrite start_ws by auto. reflexivity.
  - rewrite (p_int_text g a n) by (auto; apply gap_no_digit; auto; simpl; apply not_digit_is in N; rewrite N; reflexivity).
    rewrite (p_int_fail _ b u); [|apply start_ws; auto|apply not_digit_is; auto]. rewrite start_ws by auto. reflexivity.
  - rewrite (p_int_text g a n) by (auto; apply gap_no_digit_ne; auto).
    rewrite (p_int_text g' c m); auto.
    2:{ destruct g''; [|apply gap_no_digit_ne; auto; discriminate]. destruct k as [|b k]; [apply ends_no_digit; auto|]. simpl. apply not_digit_is. eapply F; eauto. }
    destruct k as [|b k].
    + destruct (Z eq_refl) as [Z1 Z2]. destruct r as [|b r]; [contradiction|]. cbn [List.app]. unfold p_keyword. rewrite start_ws by eauto.
      destruct Er as [Er|(b' & r' & Er & W)]; [discriminate|]. injection Er as <- <-. simpl.
      replace (is_ws b || is_delim b) with true; [reflexivity|]. symmetry. apply orb_true_iff.
      destruct W as [W|W]; [left; apply is_ws_spec; auto|right; apply is_delim_spec; auto].
    + rewrite p_keyword_text by auto. reflexivity.
  - rewrite (p_int_text g a n) by (auto; apply gap_no_digit_ne; auto).
    rewrite (p_int_text g' c m); auto. 2: apply blank_no_digit; auto.
    apply blank_spec in B. unfold p_keyword. rewrite B. reflexivity.
Qed.

Lemma p_head_in : forall t, match p_head t with Some r => head_in t r
  | None => blank t \/ exists g a n t', gap g /\ nat_text a n /\ blank t' /\ t = g ++ a ++ t' end.
Proof.
  intros t. unfold p_head. destruct (p_int t) as [[v []] r1] eqn:P1.
  - apply p_int_inv in P1. destruct P1 as (g & a & n & G & A & -> & -> & N1). destruct (p_int r1) as [[v []] r2] eqn:P2.
    + apply p_int_inv in P2. destruct P2 as (g' & c & m & G' & C & -> & -> & N2).
      assert (N' : g' <> []).
      { intros ->. destruct (nat_text_cons _ _ C) as (b & d & r & ds & -> & Hb & _). apply decdigit_spec in Hb. simpl in N1. destruct Hb; congruence. }
      unfold p_keyword. destruct (p_ws r2) as [|b u] eqn:W.
      * simpl. eapply hd_blank; eauto. apply blank_spec; auto.
      * pose proof (start_of _ _ _ W) as TS. destruct (p_ws_gap _ _ _ W) as (g'' & G'' & ->).
        destruct (p_kw_inv (b :: u)) as (r & Q1 & Q2 & Q3 & Q4). rewrite <- Q2. rewrite Q1. eapply hd_two; eauto.
        -- intros b' k' -> Z. rewrite Z in Q1. injection Q1 as <- _. apply not_digit_is. exact N2.
        -- intros Z. rewrite Z in Q1. simpl in Q1. subst r. split; [discriminate|]. intros b' r' Q. injection Q as <- <-. exact TS.
    + destruct (p_ws r1) as [|b u] eqn:W.
      * right. exists g, a, n, r1. repeat split; auto. apply blank_spec; auto.
      * pose proof (start_of _ _ _ W) as TS. unfold p_int in P2. rewrite W in P2. destruct (is_digit b) eqn:D; [destruct (p_digits _ u); discriminate|].
        injection P2 as <- <-. destruct (p_ws_gap _ _ _ W) as (g' & G' & ->). eapply hd_one; eauto. apply not_digit_is; auto.
  - destruct (p_ws t) as [|b u] eqn:W.
    + left. apply blank_spec; auto.
    + pose proof (start_of _ _ _ W) as TS. unfold p_int in P1. rewrite W in P1. destruct (is_digit b) eqn:D; [destruct (p_digits _ u); discriminate|].
      injection P1 as <- <-. destruct (p_ws_gap _ _ _ W) as (g & G & ->). apply hd_none; auto. apply not_digit_is; auto.
Qed.

Lemma header_plain : forall file s, wf file s -> let s' := snd (read_object_header s) in
  wf file s' /\ log s' = log s /\ pos s' + zlen (rest s') = pos s + zlen (rest s) /\
  match p_head (rest s) with Some r => rest s' = r | None => (List.length (rest s') <= 1)%nat end.
Proof.
  intros file s W. pose proof (St_intro _ _ W) as S0. set (e := pos s + zlen (rest s)) in *. clearbody e. unfold read_object_header, p_head.
  destruct (p_ws (rest s)) as [|b u] eqn:W1.
  - destruct (read_int_eof file s _ _ _ S0 W1) as (s1 & R1 & (A1 & A2 & A3 & A4) & L1). rewrite R1. unfold p_int. rewrite W1. simpl. auto.
  - destruct (read_int_sim file s _ _ _ S0) as (s1 & R1 & S1); [congruence|]. rewrite R1. destruct (p_int (rest s)) as [[v ok] r1]. cbn [fst snd] in *.
    destruct ok; [|destruct S1 as (A1 & A2 & A3 & A4); subst r1; cbn; auto].
    destruct (p_ws r1) as [|b' u'] eqn:W2.
    + destruct (read_int_eof file s1 _ _ _ S1 W2) as (s2 & R2 & (A1 & A2 & A3 & A4) & L1). rewrite R2. unfold p_int. rewrite W2. simpl. auto.
    + destruct (read_int_sim file s1 _ _ _ S1) as (s2 & R2 & S2); [congruence|]. rewrite R2. destruct (p_int r1) as [[v2 ok2] r2]. cbn [fst snd] in *.
      destruct ok2; [|destruct S2 as (A1 & A2 & A3 & A4); subst r2; try rewrite W2; cbn; auto].
      destruct (read_keyword_sim file s2 _ _ _ S2) as (s3 & R3 & (A1 & A2 & A3 & A4)). rewrite R3. cbn [snd]. rewrite A2 in *. auto.
Qed.

Lemma header_nothing : forall s, rest s = [] -> last s = None -> snd (read_object_header s) = s.
Proof.
  intros s R L. unfold read_object_header, read_int, read_int64, consume_ws. rewrite R. cbn [List.length consume_ws_loop]. unfold read_byte. rewrite R. cbn [snd].
  rewrite R. unfold unread_byte. rewrite L. reflexivity.
Qed.
Lemma header_due : forall file s, wf file s -> last s = None -> let s' := snd (read_object_header s) in
  wf file s' /\ log s' = log s /\ (head_in (rest s) (rest s') \/ head_cut (rest s) (rest s')) /\
  forall r, head_in (rest s) r -> rest s' = r.
Proof.
  intros file s W LN s'. destruct (header_plain file s W) as (A1 & A2 & A3 & A4). fold s' in A1, A2, A3, A4. pose proof (p_head_in (rest s)) as P.
  split; auto. split; auto. split.
  - destruct (p_head (rest s)) as [r|]; [left; rewrite A4; auto|]. right. split; auto.
    destruct (rest s') as [|b [|b2 r]] eqn:R'; [left; auto| |simpl in A4; lia]. right.
    destruct (rest s) as [|b0 t] eqn:R.
    { unfold s' in R'. rewrite header_nothing in R' by auto. congruence. }
    rewrite <- R in *. pose proof (wf_rest _ _ W) as Q. pose proof (wf_rest _ _ A1) as Q'. pose proof (wf_pos _ _ W) as Z.
    assert (E : pos s' = pos s + (zlen (rest s) - 1)). { change (zlen [b]) with 1 in A3. lia. }
    assert (NN : 1 <= zlen (rest s)) by (rewrite R; unfold zlen; cbn [List.length]; lia).
    exists (ztake (zlen (rest s) - 1) (rest s)), b. split; [|reflexivity].
    rewrite <- (ztake_zdrop _ (zlen (rest s) - 1) (rest s)) at 1 by lia. f_equal.
    rewrite <- R', Q'. rewrite Q at 2. rewrite zdrop_zdrop by lia. f_equal. lia.
  - intros r H. apply head_in_p in H. rewrite H in A4. auto.
Qed.

(** ** The object behind the header *)
Definition mono (dec dec' : decryptor) : Prop := forall v w, dec v = Ok w -> dec' v = Ok w.
Section Mono.
  Variables dec dec' : decryptor.
  Hypothesis Hm : mono dec dec'.
  Lemma p_array_mono : forall (ro ro' : bytes -> pres (obj * oerr)), (forall l y, ro l = Ok y -> ro' l = Ok y) ->
    forall n acc l y, p_array ro n acc l = Ok y -> p_array ro' n acc l = Ok y.
  Proof.
    intros ro ro' H. induction n as [|n IH]; intros acc l y Q; [discriminate|]. cbn [p_array] in *. unfold rbind in *.
    destruct (ro l) as [[[o e] [r ms]]| |] eqn:R; try discriminate. rewrite (H _ _ R). destruct e; auto; unfold pthen, rbind in *;
      (destruct (p_array ro n (acc ++ [o]) r) as [[a [r' ms']]| |] eqn:P; try discriminate; rewrite (IH _ _ _ P); exact Q).
  Qed.
  Lemma p_dict_mono : forall (ro ro' : bytes -> pres (obj * oerr)), (forall l y, ro l = Ok y -> ro' l = Ok y) ->
    forall n acc l y, p_dict ro n acc l = Ok y -> p_dict ro' n acc l = Ok y.
  Proof.
    intros ro ro' H. induction n as [|n IH]; intros acc l y Q; [discriminate|]. cbn [p_dict] in *. unfold rbind in *.
    destruct (ro l) as [[[o e] [r ms]]| |] eqn:R; try discriminate. rewrite (H _ _ R).
    assert (K : forall ms acc r, pthen ms (p_dict ro n acc r) (fun x => x) = Ok y -> pthen ms (p_dict ro' n acc r) (fun x => x) = Ok y).
    { intros ms0 acc0 r0. unfold pthen, rbind. destruct (p_dict ro n acc0 r0) as [[a [r' ms']]| |] eqn:P; try discriminate. rewrite (IH _ _ _ P). auto. }
    assert (L : match o with
      | OName key => match ro r with Ok ((v, e), (r, ms2)) => match e with EReadError | EEndOfDictionary => Ok (acc, (r, (ms ++ ms2) ++ [MissingDictionaryValue]))
          | _ => pthen (ms ++ ms2) (p_dict ro n (dset key v acc) r) (fun x => x) end | Panic => Panic | OutOfFuel => OutOfFuel end
      | _ => pthen (ms ++ [InvalidDictionaryKeyType]) (p_dict ro n acc r) (fun x => x) end = Ok y ->
      match o with
      | OName key => match ro' r with Ok ((v, e), (r, ms2)) => match e with EReadError | EEndOfDictionary => Ok (acc, (r, (ms ++ ms2) ++ [MissingDictionaryValue]))
          | _ => pthen (ms ++ ms2) (p_dict ro' n (dset key v acc) r) (fun x => x) end | Panic => Panic | OutOfFuel => OutOfFuel end
      | _ => pthen (ms ++ [InvalidDictionaryKeyType]) (p_dict ro' n acc r) (fun x => x) end = Ok y).
    { destruct o; try apply K. destruct (ro r) as [[[o2 e2] [r2 ms2]]| |] eqn:R2; try discriminate. rewrite (H _ _ R2). destruct e2; auto. }
    destruct e; auto.
  Qed.
  Lemma p_object_mono : forall n l y, p_object n dec l = Ok y -> p_object n dec' l = Ok y.
  Proof.
    induction n as [|n IH]; intros l y Q; [discriminate|]. cbn [p_object] in *.
    assert (PD : forall x, p_dec dec x = Ok y -> p_dec dec' x = Ok y).
    { intros [[v r'] ms]. unfold p_dec, rbind. destruct (dec v) eqn:D; try discriminate. rewrite (Hm _ _ D). auto. }
    destruct (p_ws l) as [|b r]; auto. destruct (beq b "/"%byte); auto. destruct (beq b "["%byte).
    { unfold pthen, rbind in *. destruct (p_array (p_object n dec) n [] r) as [[a [r' ms']]| |] eqn:P; try discriminate.
      rewrite (p_array_mono _ _ IH _ _ _ _ P). auto. }
    destruct (beq b "]"%byte); auto. destruct (beq b "("%byte); auto. destruct (beq b ")"%byte); auto.
    destruct (bseq (firstn 2 (b :: r)) (lit "<<")).
    { unfold pthen, rbind in *. destruct (p_dict (p_object n dec) n [] (tl r)) as [[a [r' ms']]| |] eqn:P; try discriminate.
      rewrite (p_dict_mono _ _ IH _ _ _ _ P). auto. }
    destruct (bseq (firstn 2 (b :: r)) (lit ">>")); auto. destruct (beq b "<"%byte); auto.
  Qed.
End Mono.

Definition patched (dec : decryptor) : bytes -> bytes := fun v => match dec v with Ok w => w | _ => [] end.
Lemma read_object_due : forall file dec s v er s', wf file s -> ReadObject file dec s = Ok ((v, er), s') ->
  exists x ms r, scan number_value (rest s) x ms r /\ er = item_error x /\ v = map_strings (patched dec) (item_value x) /\ moved file s s' r ms.
Proof.
  intros file dec s v er s' W H. destruct (scan_total (rest s)) as (x & ms & r & Sc). exists x, ms, r. split; [exact Sc|].
  pose proof (ReadObject_plain file dec s W) as S1. pose proof (proj1 scan_p _ _ _ _ Sc) as P.
  set (dec' := fun v : bytes => @Ok bytes (patched dec v)).
  assert (Hm : mono dec dec'). { intros a b Q. unfold dec', patched. rewrite Q. reflexivity. }
  pose proof (P_object_map dec' (patched dec) (fun v => eq_refl) (rest s)) as PM. rewrite P in PM. cbn [pmap fst snd] in PM.
  destruct (P_object dec (rest s)) as [[[o e] [r' ms']]| |] eqn:PO; cbn [sim] in S1; try (rewrite S1 in H; discriminate).
  unfold P_object in PO. apply (p_object_mono dec dec' Hm) in PO. unfold P_object in PM. rewrite PO in PM. injection PM as -> -> -> ->.
  destruct S1 as (s2 & R & S2). rewrite R in H. injection H as <- <- <-. split; auto. split; auto. apply St_moved; auto.
Qed.

(** ** Streams *)
Lemma rb_log : forall s, log (snd (read_byte s)) = log s.
Proof. intros s. unfold read_byte. destruct (rest s); reflexivity. Qed.
Lemma ub_log : forall s, log (unread_byte s) = log s.
Proof. intros s. unfold unread_byte. destruct (last s); reflexivity. Qed.
Lemma skip_log : forall n s, log (snd (skip_eol_loop n s)) = log s.
Proof.
  induction n as [|n IH]; intros s; [reflexivity|]. cbn [skip_eol_loop]. pose proof (rb_log s) as L. destruct (read_byte s) as [[b|] s1]; cbn [snd] in L; [|exact L].
  destruct (beq b x0a); [exact L|]. destruct (beq b x0d).
  - pose proof (rb_log s1) as L1. destruct (read_byte s1) as [[c|] s2]; cbn [snd] in *; [|congruence]. destruct (beq c x0a); [congruence|rewrite ub_log; congruence].
  - rewrite IH. exact L.
Qed.
Lemma loop_log : forall n e acc s, log (snd (stream_loop n e acc s)) = log s \/ log (snd (stream_loop n e acc s)) = log s ++ [UnclosedStream].
Proof.
  induction n as [|n IH]; intros e acc s; [left; reflexivity|]. cbn [stream_loop]. destruct (bseq e (lit "endstream")); [left; reflexivity|].
  destruct e as [|b e]; [left; reflexivity|]. pose proof (rb_log s) as L. destruct (read_byte s) as [[c|] s1]; cbn [snd] in L.
  - rewrite <- L. apply IH.
  - right. simpl. rewrite L. reflexivity.
Qed.
Lemma upto_log : forall n s, log (snd (read_upto n s)) = log s.
Proof. intros n s. unfold read_upto. destruct (rest s); reflexivity. Qed.
Lemma raw_log : forall s, log (snd (read_stream_raw s)) = log s \/ log (snd (read_stream_raw s)) = log s ++ [UnclosedStream].
Proof.
  intros s. unfold read_stream_raw. pose proof (skip_log (S (List.length (rest s))) s) as L. destruct (skip_eol_loop _ s) as [[] s1]; cbn [snd] in L; [|left; exact L].
  pose proof (upto_log 9 s1) as L1. destruct (read_upto 9 s1) as [got s2]. cbn [snd] in L1.
  match goal with |- context [stream_loop ?n ?e ?a s2] => pose proof (loop_log n e a s2) as Q; destruct (stream_loop n e a s2) as [d s3] end.
  cbn [snd] in *. rewrite L1, L in Q. exact Q.
Qed.
Lemma raw_wf : forall file s, wf file s -> wf file (snd (read_stream_raw s)).
Proof.
  intros file s W. exact (proj2 (proj2 (read_stream_raw_rel file _ (keeps_respects file) s s (conj eq_refl W)))).
Qed.

Lemma p_skip_in : forall t r, p_skip t = Some r -> exists line eol, t = line ++ eol ++ r /\ no_eol line /\ eol_before eol r.
Proof.
  induction t as [|b t IH]; intros r P; [discriminate|]. cbn [p_skip] in P.
  destruct (beq b x0a) eqn:E1; [|destruct (beq b x0d) eqn:E2].
  - apply beq_eq in E1; subst. injection P as <-. exists [], [x0a]. split; auto. split; [intros x []|apply eb_lf].
  - apply beq_eq in E2; subst. destruct t as [|c t]; [discriminate|]. destruct (beq c x0a) eqn:E3.
    + apply beq_eq in E3; subst. injection P as <-. exists [], [x0d; x0a]. split; auto. split; [intros x []|apply eb_crlf].
    + apply beq_neq in E3. injection P as <-. exists [], [x0d]. split; auto. split; [intros x []|apply eb_cr; auto].
  - destruct (IH r P) as (line & eol & -> & Hp & He). apply beq_neq in E1, E2.
    exists (b :: line), eol. split; [reflexivity|]. split; [|exact He]. intros x [<-|Hx]; auto.
Qed.
Lemma p_skip_out : forall line eol r, no_eol line -> eol_before eol r -> p_skip (line ++ eol ++ r) = Some r.
Proof.
  induction line as [|b line IH]; intros eol r Hp He.
  - inversion He; subst; cbn [app p_skip]; try reflexivity. apply beq_neq in H. simpl. rewrite H. reflexivity.
  - cbn [app p_skip]. destruct (Hp b (or_introl eq_refl)) as [A B]. apply beq_neq in A, B. rewrite A, B. apply IH; auto. intros x Hx. apply Hp. right; auto.
Qed.
Lemma loop_unclosed : forall file n e acc s, wf file s -> (List.length (rest s) < n)%nat -> e <> [] -> ~ occurs (lit "endstream") (e ++ rest s) ->
  log (snd (stream_loop n e acc s)) = log s ++ [UnclosedStream].
Proof.
  intros file. induction n as [|n IH]; intros e acc s W L N O; [lia|]. cbn [stream_loop]. destruct (bseq e (lit "endstream")) eqn:Q.
  { exfalso. apply O. apply bseq_eq in Q. exists [], (rest s). rewrite Q. reflexivity. }
  destruct e as [|b e]; [contradiction|]. pose proof (St_intro _ _ W) as S. pose proof (rb_log s) as Lg. destruct (rest s) as [|c r] eqn:R.
  - rewrite (rb_nil _ _ _ _ S). reflexivity.
  - destruct (rb_cons _ _ _ _ _ _ S) as (s' & R' & (W' & Hr & _ & Hl) & _). rewrite R' in *. cbn [snd] in Lg. rewrite <- Lg. apply IH; auto.
    + rewrite Hr. cbn [List.length] in L. lia.
    + destruct e; discriminate.
    + rewrite Hr, <- app_assoc. cbn [app]. intros (x & y & X). apply O. exists (b :: x), y. cbn [app]. rewrite X. reflexivity.
Qed.
Lemma read_upto_some : forall file n s, (0 < n)%nat -> wf file s -> rest s <> [] ->
  exists got s', read_upto n s = (Some got, s') /\ got <> [] /\ got ++ rest s' = rest s.
Proof.
  intros file n s N W R. unfold read_upto. destruct (rest s) as [|b r] eqn:Q; [contradiction|].
  do 2 eexists. split; [reflexivity|]. cbn [rest]. split; [|apply firstn_skipn].
  assert (K : (0 < Nat.min n (Z.to_nat (if (buf s =? 0)%Z then filled s else buf s)))%nat).
  { pose proof (wf_buf _ _ W) as B. unfold filled, bufsize. rewrite Q, zlen_cons. pose proof (zlen_nonneg _ r).
    destruct (buf s =? 0) eqn:Z0; [|apply Z.eqb_neq in Z0]; lia. }
  destruct (Nat.min n _); [lia|discriminate].
Qed.
Lemma upto_wf : forall file s, wf file s -> wf file (snd (read_upto 9 s)).
Proof. intros file s W. exact (proj2 (proj2 (r_ru _ _ (keeps_respects file) s s 9 ltac:(lia) (conj eq_refl W)))). Qed.

Definition unclosed_end (t : bytes) (d : bytes) : Prop :=
  exists line eol, t = line ++ eol ++ d /\ no_eol line /\ eol_before eol d.
Lemma raw_due : forall file s, wf file s ->
  (log (snd (read_stream_raw s)) = log s \/
   (log (snd (read_stream_raw s)) = log s ++ [UnclosedStream] /\ exists d, unclosed_end (rest s) d /\ d <> [])) /\
  (forall d, unclosed_end (rest s) d -> d <> [] -> ~ occurs (lit "endstream") d ->
     log (snd (read_stream_raw s)) = log s ++ [UnclosedStream]).
Proof.
  intros file s W. pose proof (St_intro _ _ W) as S. unfold read_stream_raw.
  pose proof (skip_eol_plain file (rest s) (Datatypes.S (List.length (rest s))) s _ _ S ltac:(lia)) as H.
  pose proof (skip_log (Datatypes.S (List.length (rest s))) s) as Lg.
  destruct (p_skip (rest s)) as [r|] eqn:P.
  - destruct H as (s1 & Q & (W1 & R1 & _) & _). rewrite Q in *. cbn [snd] in Lg.
    destruct r as [|b r].
    + unfold read_upto. rewrite R1. cbn [stream_loop snd]. change (bseq [] (lit "endstream")) with false. cbv iota. cbn [snd]. split; [left; exact Lg|].
      intros d (line & eol & X & N & Eb) D. exfalso. rewrite X, (p_skip_out _ _ _ N Eb) in P. congruence.
    + destruct (read_upto_some file 9 s1) as (got & s2 & U & Ng & Sp); [lia|exact W1|rewrite R1; discriminate|].
      pose proof (upto_wf file s1 W1) as W2. pose proof (upto_log 9 s1) as L2. rewrite U in W2, L2 |- *. cbn [snd] in W2, L2.
      pose proof (loop_log (Datatypes.S (List.length (rest s2))) got [] s2) as Ll.
      pose proof (loop_unclosed file (Datatypes.S (List.length (rest s2))) got [] s2 W2 ltac:(lia) Ng) as Lu.
      destruct (stream_loop _ got [] s2) as [d s3]. cbn [snd] in *. rewrite L2, Lg in *. split.
      * destruct Ll as [Ll|Ll]; [left; exact Ll|right]. split; [exact Ll|]. exists (b :: r). split; [|discriminate].
        destruct (p_skip_in _ _ P) as (line & eol & X). exists line, eol. exact X.
      * intros d' (line & eol & X & N & Eb) D O. apply Lu. rewrite Sp, R1. rewrite X, (p_skip_out _ _ _ N Eb) in P. congruence.
  - destruct H as (s1 & Q & _). rewrite Q in *. cbn [snd] in *. split; [left; exact Lg|].
    intros d (line & eol & X & N & Eb). exfalso. rewrite X, (p_skip_out _ _ _ N Eb) in P. discriminate.
Qed.

(** ** GetObject *)
Section Get.
  Variable file : bytes.
  Notation due := (called_for number_value file).

  (** along a computation only messages that are called for are added *)
  Definition along (p p' : pst) : Prop := SpecFetch.reads file p -> SpecFetch.reads file p' /\ pxref p' = pxref p /\
    exists mss, log (prd p') = log (prd p) ++ List.concat mss /\ forall ms, In ms mss -> due (pxref p) ms.
  Lemma along_refl : forall p, along p p.
  Proof. intros p W. split; auto. split; auto. exists []. split; [symmetry; apply app_nil_r|intros ms []]. Qed.
  Lemma along_trans : forall p q r, along p q -> along q r -> along p r.
  Proof.
    intros p q r A B W. destruct (A W) as (W1 & X1 & m1 & L1 & D1). destruct (B W1) as (W2 & X2 & m2 & L2 & D2).
    split; auto. split; [congruence|]. exists (m1 ++ m2). rewrite L2, L1, concat_app, app_assoc. split; auto.
    intros ms I. apply in_app_or in I. destruct I as [I|I]; [auto|]. rewrite <- X1. auto.
  Qed.
  Lemma along_same : forall p s, (wf file (prd p) -> wf file s) -> log s = log (prd p) -> along p (with_rd s p).
  Proof.
    intros p s H L W. split; [exact (H W)|]. split; [reflexivity|]. exists []. cbn [prd with_rd]. rewrite L. split; [symmetry; apply app_nil_r|intros ms []].
  Qed.

  (** the beginning of GetObject for an object in use: its own messages *)
  Lemma in_use_start : forall dec n e p v er s2, SpecFetch.reads file p -> xget n (pxref p) = Some e -> x_type e = 1 ->
    ReadObject file dec (snd (read_object_header (seek file (x_off e) (prd p)))) = Ok ((v, er), s2) ->
    exists off u x ms r, place (pxref p) n off /\ (0 <= x_off e -> off = x_off e) /\
      (head_in (zdrop off file) u \/ head_cut (zdrop off file) u) /\ (forall u', head_in (zdrop off file) u' -> u' = u) /\
      scan number_value u x ms r /\ v = map_strings (patched dec) (item_value x) /\
      wf file s2 /\ rest s2 = r /\ log s2 = log (prd p) ++ ms.
  Proof.
    intros dec n e p v er s2 W X Ty R.
    assert (W0 : wf file (seek file (x_off e) (prd p))) by (apply seek_wf; exact W).
    assert (L0 : last (seek file (x_off e) (prd p)) = None) by (unfold seek; destruct (x_off e <? 0); reflexivity).
    destruct (header_due file _ W0 L0) as (W1 & G1 & H1 & U1). destruct (read_object_due _ _ _ _ _ _ W1 R) as (x & ms & r & Sc & Er & Ev & M).
    rewrite (wf_rest _ _ W0) in H1, U1.
    exists (pos (seek file (x_off e) (prd p))), (rest (snd (read_object_header (seek file (x_off e) (prd p))))), x, ms, r.
    assert (P : 0 <= x_off e -> pos (seek file (x_off e) (prd p)) = x_off e).
    { intros Z. unfold seek. apply Z.ltb_ge in Z. rewrite Z. reflexivity. }
    split; [exists e; auto|]. split; auto. split; auto. split; [intros u' Hu; symmetry; auto|]. split; auto. split; auto.
    destruct M as (M1 & M2 & M3 & M4). split; auto. split; auto. rewrite M4, G1, seek_log. reflexivity.
  Qed.

  Lemma scan_shrinks : forall t x ms r, scan number_value t x ms r -> (List.length r <= List.length t)%nat.
  Proof.
    intros t x ms r H. apply (proj1 scan_p) in H. assert (D : decent no_decryptor) by (intros v; discriminate).
    pose proof (P_finish _ D t) as F. unfold finish, P0 in *. rewrite H in F.
    destruct (item_res x) as [v e]. destruct (match e with EReadError => true | _ => false end); [destruct F as [_ ->]; simpl; lia|lia].
  Qed.
  Lemma p_keyword_stream : forall l, fst (p_keyword l) = lit "stream" ->
    exists g, gap g /\ l = g ++ lit "stream" ++ snd (p_keyword l) /\ ends_token (snd (p_keyword l)).
  Proof.
    intros l H. unfold p_keyword in *. destruct (p_kw_inv (p_ws l)) as (r & Q & Er & He & _).
    rewrite H in Q. destruct (p_ws l) as [|b u] eqn:Pw; [discriminate|]. destruct (p_ws_gap _ _ _ Pw) as (g & Hg & ->).
    exists g. split; auto. rewrite <- Er, <- Q. auto.
  Qed.
  Lemma key_stream : forall off u r x ms, (head_in (zdrop off file) u \/ head_cut (zdrop off file) u) ->
    (forall u', head_in (zdrop off file) u' -> u' = u) -> scan number_value u x ms r ->
    (forall d, stream_data number_value file off d -> fst (p_keyword r) = lit "stream" /\ unclosed_end (snd (p_keyword r)) d) /\
    (fst (p_keyword r) = lit "stream" -> forall d, unclosed_end (snd (p_keyword r)) d -> stream_data number_value file off d).
  Proof.
    intros off u r x ms Hd Hu Sc. split.
    - intros d (u' & x' & ms' & g & line & eol & H1 & H2 & G & En & Nl & Eb). rewrite (Hu _ H1) in H2.
      destruct (scan_unique _ _ _ _ _ _ _ Sc H2) as (_ & _ & ->).
      assert (K : p_keyword (g ++ lit "stream" ++ line ++ eol ++ d) = (lit "stream", line ++ eol ++ d)).
      { apply (p_keyword_text g (lit "tream") (line ++ eol ++ d) "s"%byte); auto. 
        assert (F : forall c, In c (lit "stream") -> is_ws c = false /\ is_delim c = false).
        { apply Forall_forall. repeat constructor. }
        intros c I. destruct (F c I) as [F1 F2]. split; intros Z; [apply is_ws_spec in Z|apply is_delim_spec in Z]; congruence. }
      rewrite K. split; auto. exists line, eol. auto.
    - intros K d (line & eol & X & Nl & Eb). destruct (p_keyword_stream _ K) as (g & G & Q & En). rewrite X in Q, En.
      destruct Hd as [Hd|[_ Hc]].
      + exists u, x, ms, g, line, eol. rewrite <- Q. auto 8.
      + exfalso. pose proof (scan_shrinks _ _ _ _ Sc) as L. rewrite Q, app_length, app_length in L. simpl in L.
        destruct Hc as [->|(v & b & _ & ->)]; simpl in L; lia.
  Qed.

  Definition settled (p : pst) (n : Z) (own : list msg) (mss : list (list msg)) : Prop :=
    (exists off, place (pxref p) n off /\ (text_due number_value file off own \/ cut_due number_value file off own) /\
       forall d, stream_data number_value file off d -> d <> [] -> ~ occurs (lit "endstream") d -> In [UnclosedStream] mss) /\
    forall ms, In ms mss -> due (pxref p) ms.
  Definition started (n : Z) (p p' : pst) : Prop := SpecFetch.reads file p -> SpecFetch.reads file p' /\ pxref p' = pxref p /\
    exists own mss, log (prd p') = log (prd p) ++ own ++ List.concat mss /\ settled p n own mss.
  Definition keepT (p p' : pst) : Prop := along p p' /\ (SpecFetch.reads file p -> pos (prd p') = pos (prd p)).
  Lemma keepT_refl : forall p, keepT p p.
  Proof. intros p. split; [apply along_refl|auto]. Qed.
  Lemma keepT_trans : forall p q r, keepT p q -> keepT q r -> keepT p r.
  Proof.
    intros p q r [A B] [C D]. split; [eapply along_trans; eauto|]. intros W. destruct (A W) as (W1 & _). rewrite D, B by auto. reflexivity.
  Qed.

  Lemma started_along : forall n p p', started n p p' -> along p p'.
  Proof.
    intros n p p' H W. destruct (H W) as (W' & X & own & mss & L & (off & P & T & _) & D). split; auto. split; auto.
    exists (own :: mss). split; [exact L|]. intros ms [<-|I]; auto. exists n, off. split; auto. tauto.
  Qed.

  Lemma get_in_use_started : forall E rs f n e p o p', (forall n, goes keepT (rs n)) -> xget n (pxref p) = Some e -> x_type e = 1 ->
    get_in_use E rs f file n e p = Ok (o, p') -> started n p p'.
  Proof.
    intros E rs f n e p o p' Rs X Ty H W. rewrite get_in_use_eq in H.
    destruct (ReadObject file _ _) as [[[v er] s2]| |] eqn:R; try discriminate.
    destruct (in_use_start _ _ _ _ _ _ _ W X Ty R) as (off & u & x & ms & r & P & _ & Hd & Hu & Sc & _ & W2 & R2 & L2). clear R.
    assert (TD : text_due number_value file off ms \/ cut_due number_value file off ms).
    { destruct Hd as [Hd|Hd]; [left|right]; exists u, x, r; auto. }
    destruct (read_keyword_sim file s2 _ _ _ (wf_St _ _ W2)) as (s3 & K & W3 & R3 & _ & L3). rewrite K in H. cbn [fst snd] in H. rewrite R2 in *.
    unfold object_end in H. destruct (bseq (fst (p_keyword r)) (lit "stream")) eqn:Q.
    - apply bseq_eq in Q. unfold bind at 1 in H. destruct (filter_list rs _ _) as [[fl q1]| |] eqn:E1; try discriminate.
      unfold bind at 1 in H. destruct (parms_list rs _ q1) as [[pl q2]| |] eqn:E2; try discriminate.
      unfold bind at 1 in H. destruct (choose_crypt rs _ _ fl pl q2) as [[[cf [fl' pl']] q3]| |] eqn:E3; try discriminate.
      unfold read_stream in H. unfold bind at 2 in H. unfold bind at 1, onrd in H.
      assert (KT : keepT (with_rd s3 p) q3).
      { eapply keepT_trans; [|exact (choose_crypt_goes _ keepT_refl keepT_trans _ Rs _ _ _ _ _ _ _ E3)].
        eapply keepT_trans; [exact (filter_list_goes _ keepT_refl keepT_trans _ Rs _ _ _ _ E1)|exact (parms_list_goes _ keepT_refl keepT_trans _ Rs _ _ _ _ E2)]. }
      destruct KT as [A Ps]. specialize (A W3). specialize (Ps W3). destruct A as (W4 & X4 & m4 & L4 & D4). cbn [prd with_rd pxref] in *.
      assert (R4 : rest (prd q3) = snd (p_keyword r)) by (rewrite (wf_rest _ _ W4), Ps, <- (wf_rest _ _ W3); exact R3).
      pose proof (raw_wf file _ W4) as W5. destruct (raw_due file _ W4) as [Rd Rc]. destruct (read_stream_raw (prd q3)) as [raw s5]. cbn [snd] in *.
      assert (Fin : keepT (with_rd s5 q3) p').
      { assert (G : goes keepT (st <- match raw with None => ret (Some []) | Some d => d <- lift (new_decryptor E cf n (x_gen e) d);; decode_loop E rs f (List.length fl') 0 fl' pl' (Some d) end ;;
           ret {| inum := n; igen := x_gen e; ival := v; istream := st |})%m).
        { apply bind_goes; [exact keepT_trans| |intros; apply ret_goes; exact keepT_refl]. destruct raw; [|apply ret_goes; exact keepT_refl].
          apply bind_goes; [exact keepT_trans|apply lift_goes; exact keepT_refl|intros]. apply decode_loop_goes; [exact keepT_refl|exact keepT_trans|exact Rs]. }
        eapply G. unfold bind at 1. exact H. }
      destruct Fin as [A _]. destruct (A W5) as (W6 & X6 & m6 & L6 & D6). cbn [prd with_rd pxref] in *.
      split; auto. split; [congruence|]. 
      assert (Sk : forall d, stream_data number_value file off d <-> unclosed_end (rest (prd q3)) d).
      { intros d. rewrite R4. destruct (key_stream _ _ _ _ _ Hd Hu Sc) as [K1 K2]. split; [intros Z; exact (proj2 (K1 d Z))|exact (K2 Q d)]. }
      destruct Rd as [Rd|(Rd & d & Du & Dn)].
      + exists ms, (m4 ++ m6). split.
        { rewrite L6, Rd, L4, L3, L2, concat_app, <- !app_assoc. reflexivity. }
        split; [exists off; split; [exact P|]; split; [exact TD|]|].
        * intros d Sd Dn O. exfalso. apply Sk in Sd. rewrite (Rc d Sd Dn O) in Rd. apply (f_equal (@List.length _)) in Rd. rewrite app_length in Rd. simpl in Rd. lia.
        * intros l I. apply in_app_or in I. destruct I as [I|I]; auto. rewrite <- X4. auto.
      + exists ms, (m4 ++ [UnclosedStream] :: m6). split.
        { rewrite L6, Rd, L4, L3, L2, concat_app. cbn [List.concat]. rewrite <- !app_assoc. reflexivity. }
        split; [exists off; split; [exact P|]; split; [exact TD|]|].
        * intros d' _ _ _. apply in_or_app. right. left. reflexivity.
        * intros l I. apply in_app_or in I. destruct I as [I|[<-|I]]; auto; [|rewrite <- X4; auto].
          exists n, off. split; auto. right. right. split; auto. exists d. split; auto. apply Sk. exact Du.
    - assert (Qp : p' = with_rd s3 p) by (unfold ret in H; congruence). subst p'. cbn [prd with_rd pxref]. split; [exact W3|]. split; auto.
      exists ms, []. cbn [List.concat]. rewrite app_nil_r. split; [rewrite L3; exact L2|]. split; [|intros l []].
      exists off. split; [exact P|]. split; [exact TD|]. intros d Sd. exfalso.
      rewrite (proj1 (proj1 (key_stream _ _ _ _ _ Hd Hu Sc) d Sd)) in Q. discriminate.
  Qed.

  Lemma restoring_keepT : forall m, goes along m -> goes keepT (restoring file m).
  Proof.
    intros m G p o p' H. unfold restoring, bind, pseek, ret in H. destruct (m p) as [[a q]| |] eqn:Q; try discriminate.
    assert (p' = with_rd (seek file (pos (prd p)) (prd q)) q) by congruence. subst p'. specialize (G _ _ _ Q). split.
    - eapply along_trans; [exact G|]. apply along_same; [apply seek_wf|apply seek_log].
    - intros W. cbn [prd with_rd]. unfold seek. pose proof (wf_pos _ _ W) as P. replace (pos (prd p) <? 0) with false by (symmetry; apply Z.ltb_ge; lia). reflexivity.
  Qed.
  Lemma get_resolve_goes : forall E f, (forall n, goes along (get_object f E file n)) /\ (forall n seen, goes along (resolve f E file n seen)).
  Proof.
    intros E. induction f as [|f [IH1 IH2]]; [split; intros; intros p a p' H; discriminate|]. split.
    - intros n p o p' H. cbn [get_object] in H. destruct (xget n (pxref p)) as [e|] eqn:X.
      + destruct (x_type e =? XrefTypeIndirectObject) eqn:Ty.
        * apply Z.eqb_eq in Ty. eapply started_along, get_in_use_started; [|exact X|exact Ty|exact H]. intros r. apply restoring_keepT. apply IH2.
        * assert (p' = p) by congruence. subst. apply along_refl.
      + assert (p' = p) by congruence. subst. apply along_refl.
    - intros n seen. cbn [resolve]. destruct (zmem n seen); [apply ret_goes; exact along_refl|]. apply bind_goes; [exact along_trans|apply IH1|].
      intros o. destruct (ival o); try (apply ret_goes; exact along_refl). apply IH2.
  Qed.
  Lemma GetObject_goes : forall E f n, goes along (GetObject f E file n).
  Proof. intros. apply get_resolve_goes. Qed.
  Lemma GetObject_started : forall E f n e p o p', xget n (pxref p) = Some e -> x_type e = 1 -> GetObject f E file n p = Ok (o, p') -> started n p p'.
  Proof.
    intros E f n e p o p' X Ty H. destruct f as [|f]; [discriminate|]. unfold GetObject in H. rewrite (get_object_in_use _ _ _ _ _ _ X Ty) in H.
    eapply get_in_use_started; eauto. intros r. apply restoring_keepT, get_resolve_goes.
  Qed.
  Lemma Resolve_goes : forall E f n, goes along (Resolve f E file n).
  Proof. intros E f n p a p' H. apply (restoring_keepT _ (proj2 (get_resolve_goes E f) n []) _ _ _ H). Qed.

  (** ** The objects one after the other *)
  Variables (E : env) (OD : order) (fuel : nat).
  Hypothesis OK : order_ok OD.
  Lemma extract_one_started : forall n e p w u p', xget n (pxref p) = Some e -> x_type e = 1 ->
    extract_one E OD fuel file (n, e) p = (w, Ok (u, p')) -> started n p p'.
  Proof.
    intros n e p w u p' X Ty H W. unfold extract_one in H. rewrite Ty in H. cbn [Z.eqb XrefTypeIndirectObject Pos.eqb] in H.
    destruct (RawP.xbind_ok _ _ _ _ _ _ _ _ H) as (w1 & a1 & q1 & w2 & H1 & H2 & _). clear H.
    destruct (RawP.xbind_ok _ _ _ _ _ _ _ _ H2) as (w3 & o & q2 & w4 & H3 & H4 & _). clear H2.
    assert (Q1 : q1 = p). { unfold xlift, lift in H1. destruct (debug E); congruence. } subst q1.
    unfold xlift in H3. destruct (GetObject fuel E file n p) as [[o' q2']| |] eqn:G; try congruence. assert (q2' = q2) by congruence. subst q2'.
    destruct (GetObject_started _ _ _ _ _ _ _ X Ty G W) as (W1 & X1 & own & mss & L & (off & P & T & C) & D).
    assert (A : along q2 p').
    { refine (_ : along q2 p'). destruct (RawP.xbind_ok _ _ _ _ _ _ _ _ H4) as (w5 & u5 & q5 & w6 & H5 & H6 & _).
      eapply along_trans; [exact (object_extract_goes _ along_refl along_trans _ _ _ OK _ (Resolve_goes E fuel) _ _ _ _ _ _ H5)|].
      unfold xout in H6. assert (p' = q5) by congruence. subst. apply along_refl. }
    destruct (A W1) as (W2 & X2 & m2 & L2 & D2). split; auto. split; [congruence|]. exists own, (mss ++ m2).
    split; [rewrite L2, L, concat_app, <- !app_assoc; reflexivity|]. split.
    - exists off. split; auto. split; auto. intros d Sd Dn O. apply in_or_app. left. eauto.
    - intros ms I. apply in_app_or in I. destruct I as [I|I]; auto. rewrite <- X1. auto.
  Qed.

  Definition block := (Z * (list msg * list (list msg)))%type.
  Definition said (bs : list block) : list msg := List.concat (map (fun b : block => fst (snd b) ++ List.concat (snd (snd b))) bs).
  Lemma extract_all_blocks : forall l p w u p', SpecFetch.reads file p -> (forall n e, In (n, e) l -> xget n (pxref p) = Some e) ->
    extract_all E OD fuel file l p = (w, Ok (u, p')) ->
    pxref p' = pxref p /\ exists bs : list block, map fst bs = map fst (filter (fun kv => x_type (snd kv) =? 1) l) /\
      log (prd p') = log (prd p) ++ said bs /\ forall n own more, In (n, (own, more)) bs -> settled p n own more.
  Proof.
    induction l as [|[n e] l IH]; intros p w u p' W X H; cbn [extract_all] in H.
    - unfold xret in H. assert (p' = p) by congruence. subst. split; auto. exists []. split; auto. split; [symmetry; apply app_nil_r|intros n own more []].
    - destruct (RawP.xbind_ok _ _ _ _ _ _ _ _ H) as (w1 & a & q & w2 & H1 & H2 & _). clear H. cbn [filter snd]. destruct (x_type e =? 1) eqn:Ty.
      + apply Z.eqb_eq in Ty. destruct (extract_one_started n e p w1 a q (X _ _ (or_introl eq_refl)) Ty H1 W) as (W1 & X1 & own & mss & L & S1).
        destruct (IH q w2 u p' W1) as (X2 & bs & F & L2 & S2); [intros; rewrite X1; apply X; right; auto|exact H2|].
        split; [congruence|]. exists ((n, (own, mss)) :: bs). cbn [map fst]. split; [f_equal; exact F|]. split.
        * rewrite L2, L. unfold said. cbn [map List.concat fst snd]. rewrite <- !app_assoc. reflexivity.
        * intros m o mo [Q|I]; [assert (m = n /\ o = own /\ mo = mss) as (-> & -> & ->) by (repeat split; congruence); exact S1|].
          pose proof (S2 _ _ _ I) as Z. unfold settled in *. rewrite X1 in Z. exact Z.
      + assert (q = p). { unfold extract_one in H1. change XrefTypeIndirectObject with 1 in H1. rewrite Ty in H1. unfold xret in H1. congruence. }
        subst q. destruct (IH p w2 u p' W) as (X2 & bs & F & L2 & S2); [intros; apply X; right; auto|exact H2|]. split; auto. exists bs. auto.
  Qed.
  Lemma all_accounted : forall p w u p', sound file p -> extract_all E OD fuel file (o_xref OD (pxref p)) p = (w, Ok (u, p')) ->
    pxref p' = pxref p /\ exists ms, log (prd p') = log (prd p) ++ ms /\ accounted number_value file (pxref p) ms.
  Proof.
    intros p w u p' [W N] H. pose proof (proj2 (proj2 OK) (pxref p)) as PX.
    destruct (extract_all_blocks _ _ _ _ _ W (fun n e I => In_mget Z.eqb Zeqb_ok _ _ _ N (Permutation_in _ (Permutation_sym PX) I)) H) as (X & bs & M & L & S).
    split; auto. exists (said bs). split; auto.
    assert (PF : Permutation (map fst (pxref p)) (map fst (o_xref OD (pxref p)))) by (apply Permutation_map; exact PX).
    assert (NX : NoDup (map fst (o_xref OD (pxref p)))) by (eapply Permutation_NoDup; [exact PF | exact N]).
    exists bs. split; [reflexivity|]. rewrite M. split; [|split].
    - clear -NX. induction (o_xref OD (pxref p)) as [| [k e] l IH]; [constructor |]. cbn [map fst filter snd] in *. inversion NX; subst.
      destruct (x_type e =? 1); [| apply IH; assumption]. cbn [map fst]. constructor; [| apply IH; assumption].
      intros I. apply H1. apply in_map_iff in I. destruct I as (kv & Q & I). apply filter_In in I. apply in_map_iff. exists kv. tauto.
    - intros n. split.
      + intros I. apply in_map_iff in I. destruct I as ([k e] & Q & I). cbn [fst] in Q. subst k. apply filter_In in I. destruct I as [I T]. cbn [snd] in T.
        apply Z.eqb_eq in T. exists e. split; [| exact T]. apply (In_mget Z.eqb Zeqb_ok); [exact N |]. eapply Permutation_in; [apply Permutation_sym; exact PX | exact I].
      + intros (e & Xe & T). apply in_map_iff. exists (n, e). split; [reflexivity |]. apply filter_In. split; [| cbn [snd]; apply Z.eqb_eq; exact T].
        eapply Permutation_in; [exact PX |]. apply (BaseP.mget_In Z.eqb Zeqb_ok). exact Xe.
    - exact S.
  Qed.
End Get.

Lemma good_number_value : good_values number_value.
Proof.
  split; [exact number_value_int|exact scan_canonical|exact scan_total|exact scan_unique].
Qed.

(** ** What follows *)
Lemma p_int_blank : forall t, p_ws t = [] -> snd (fst (p_int t)) = false.
Proof. intros t H. unfold p_int. rewrite H. reflexivity. Qed.
Lemma head_cut_p : forall t r, head_cut t r -> p_head t = None.
Proof.
  intros t r [H _]. unfold p_head. destruct H as [H|(g & a & n & t' & G & A & B & ->)].
  - apply blank_spec in H. pose proof (p_int_blank _ H) as P. destruct (p_int t) as [[v ok] r1]. cbn [fst snd] in P. subst ok. rewrite H. reflexivity.
  - pose proof (blank_no_digit _ B) as D. apply blank_spec in B. rewrite (p_int_text g a n) by auto. pose proof (p_int_blank _ B) as P.
    destruct (p_int t') as [[v ok] r1]. cbn [fst snd] in P. subst ok. rewrite B. reflexivity.
Qed.
Lemma head_in_one : forall t r r', head_in t r -> head_in t r' -> r = r'.
Proof. intros t r r' A B. apply head_in_p in A. apply head_in_p in B. congruence. Qed.
Lemma head_not_cut : forall t r r', head_in t r -> head_cut t r' -> False.
Proof. intros t r r' A B. apply head_in_p in A. apply head_cut_p in B. congruence. Qed.

Lemma accounted_reported : forall value file x ms n e u it own r, good_values value -> accounted value file x ms ->
  xget n x = Some e -> x_type e = 1 -> 0 <= x_off e -> head_in (zdrop (x_off e) file) u -> scan value u it own r ->
  exists a b, ms = a ++ own ++ b.
Proof.
  intros value file x ms n e u it own r GV (bs & -> & _ & Iu & B) X Ty O H Sc.
  assert (I : In n (map fst bs)) by (apply Iu; exists e; auto). apply in_map_iff in I. destruct I as ([m [own' more]] & Q & I). cbn [fst] in Q. subst m.
  destruct (B _ _ _ I) as ((off & (e' & X' & _ & Po) & T & _) & _). assert (e' = e) by congruence. subst e'. rewrite (Po O) in *.
  assert (own' = own).
  { destruct T as [(u' & it' & r' & H' & Sc')|(u' & it' & r' & H' & _)]; [|exfalso; eapply head_not_cut; eauto].
    rewrite (head_in_one _ _ _ H' H) in Sc'. destruct (gv_unique _ GV _ _ _ _ _ _ _ Sc' Sc) as (_ & Z & _). exact Z. }
  subst own'. apply in_split in I. destruct I as (b1 & b2 & ->). rewrite map_app, concat_app. cbn [map List.concat fst snd].
  eexists. eexists. rewrite <- app_assoc. reflexivity.
Qed.
Lemma accounted_unclosed : forall value file x ms n e d, good_values value -> accounted value file x ms ->
  xget n x = Some e -> x_type e = 1 -> 0 <= x_off e -> stream_data value file (x_off e) d -> d <> [] -> ~ occurs (lit "endstream") d ->
  In UnclosedStream ms.
Proof.
  intros value file x ms n e d GV (bs & -> & _ & Iu & B) X Ty O Sd Dn Oc.
  assert (I : In n (map fst bs)) by (apply Iu; exists e; auto). apply in_map_iff in I. destruct I as ([m [own more]] & Q & I). cbn [fst] in Q. subst m.
  destruct (B _ _ _ I) as ((off & (e' & X' & _ & Po) & _ & U) & _). assert (e' = e) by congruence. subst e'. rewrite (Po O) in *.
  specialize (U d Sd Dn Oc). apply in_concat. eexists. split; [apply in_map; exact I|]. cbn [fst snd]. apply in_or_app. right.
  apply in_concat. eexists. split; [exact U|left; reflexivity].
Qed.
Lemma concat_nil : forall A (l : list (list A)), (forall x, In x l -> x = []) -> List.concat l = [].
Proof. intros A l H. induction l as [|x l IH]; auto. cbn [List.concat]. rewrite (H x (or_introl eq_refl)). apply IH. intros y I. apply H. right; auto. Qed.
Lemma object_head_in : forall head k j r, object_head head k j -> ends_token r -> head_in (head ++ r) r.
Proof.
  intros head k j r H Er. destruct H as [g0 a n g1 b g g2 G0 A G1 N1 B G2]. repeat rewrite <- app_assoc.
  eapply (hd_two g0 a n g1 b g g2 (lit "obj") r); eauto; try discriminate.
  - assert (F : forall c, In c (lit "obj") -> is_ws c = false /\ is_delim c = false) by (apply Forall_forall; repeat constructor).
    intros c I. destruct (F c I) as [F1 F2]. split; intros Z; [apply is_ws_spec in Z|apply is_delim_spec in Z]; congruence.
  - intros c k' _ Q. injection Q as <- _. intros I. repeat (destruct I as [I|I]; [discriminate I|]). exact I.
Qed.
Lemma accounted_clean : forall value file x ms, good_values value -> accounted value file x ms ->
  (forall n, in_use x n -> orderly file x n) -> ms = [].
Proof.
  intros value file x ms GV (bs & -> & _ & Iu & B) C.
  assert (K : forall n off l, in_use x n -> place x n off ->
     (text_due value file off l \/ cut_due value file off l -> l = []) /\ (forall d, ~ stream_data value file off d)).
  { intros n off l U (e & X & Ty & Po). destruct (C n U) as (e' & head & k & j & g & t & o & g2 & r & X' & O & Z & Hd & G & Et & Tx & Mf & G2 & Er).
    assert (e' = e) by congruence. subst e'. rewrite (Po O) in *.
    assert (H : head_in (zdrop (x_off e) file) (g ++ t ++ g2 ++ lit "endobj" ++ r)).
    { rewrite Z. eapply object_head_in; [exact Hd|]. destruct Et as [Et|(b & q & Et & Db)].
      - destruct g; [|discriminate]. destruct t; [|discriminate]. exfalso. apply TextP.text_nonempty in Tx. simpl in Tx. lia.
      - right. rewrite app_assoc, Et. exists b, (q ++ g2 ++ lit "endobj" ++ r). auto. }
    pose proof (gv_canonical _ GV _ _ _ _ G Tx Mf) as Sc. split.
    - intros [(u' & it' & r' & H' & Sc')|(u' & it' & r' & H' & _)]; [|exfalso; eapply head_not_cut; eauto].
      rewrite (head_in_one _ _ _ H' H) in Sc'. destruct (gv_unique _ GV _ _ _ _ _ _ _ Sc' Sc) as (_ & Q & _). exact Q.
    - intros d (u' & it' & ms' & g' & line & eol & H' & Sc' & G' & En & _). rewrite (head_in_one _ _ _ H' H) in Sc'.
      destruct (gv_unique _ GV _ _ _ _ _ _ _ Sc' Sc) as (_ & _ & Q).
      assert (R : forall w, (forall c, In c w -> is_ws c = false /\ is_delim c = false) -> forall c, In c w -> regular_byte c).
      { intros w F c I. destruct (F c I) as [F1 F2]. split; intros Y; [apply is_ws_spec in Y|apply is_delim_spec in Y]; congruence. }
      assert (P1 : p_keyword (g' ++ lit "stream" ++ line ++ eol ++ d) = (lit "stream", line ++ eol ++ d)).
      { apply (p_keyword_text g' (lit "tream") (line ++ eol ++ d) "s"%byte); auto. apply R. apply Forall_forall. repeat constructor. }
      assert (P2 : p_keyword (g2 ++ lit "endobj" ++ r) = (lit "endobj", r)).
      { apply (p_keyword_text g2 (lit "ndobj") r "e"%byte); auto. apply R. apply Forall_forall. repeat constructor. }
      rewrite Q, P2 in P1. discriminate. }
  assert (U : forall n off, place x n off -> in_use x n) by (intros n off (e & X & Ty & _); exists e; auto).
  apply concat_nil. intros l I. apply in_map_iff in I. destruct I as ([n [own more]] & <- & I). cbn [fst snd].
  destruct (B _ _ _ I) as ((off & P & T & _) & M). rewrite (proj1 (K n off own (U _ _ P) P) T). cbn [app]. apply concat_nil.
  intros m Im. destruct (M m Im) as (n' & off' & P' & [T'|[T'|(_ & d & Sd & _)]]); [| |exfalso; exact (proj2 (K n' off' m (U _ _ P') P') d Sd)];
    apply (proj1 (K n' off' m (U _ _ P') P')); auto.
Qed.

Lemma fault_lines_are : forall ms, error_lines ms = fault_lines ms.
Proof.
  intro ms. unfold error_lines. induction ms as [|m ms IH]; [reflexivity|]. cbn [map List.concat fault_lines].
  rewrite IH, <- app_assoc. destruct m; reflexivity.
Qed.
Lemma lines_app : forall a b, fault_lines (a ++ b) = fault_lines a ++ fault_lines b.
Proof. induction a as [|m a IH]; intro b; [reflexivity|]. cbn [app fault_lines]. rewrite IH, <- app_assoc. reflexivity. Qed.

Lemma errors_accounted : exists value, good_values value /\
  forall E OD fuel file pw w p, order_ok OD -> parse_body E OD fuel file pw (new_parser file) = (w, Ok (None, p)) ->
  exists p1 ms, load fuel E (o_objects OD) file pw (new_parser file) = Ok (None, p1) /\ pxref p = pxref p1 /\
    errors_txt p = errors_txt p1 ++ fault_lines ms /\ accounted value file (pxref p1) ms.
Proof.
  exists number_value. split; [exact good_number_value|]. intros E OD fuel file pw w p OK H.
  destruct (body_ok _ _ _ _ _ _ _ _ _ H) as (p1 & L & X & _). destruct (X eq_refl) as (u & Y).
  destruct (all_accounted file E OD fuel OK p1 w u p) as (X1 & ms & Lg & A); [eapply tidy_load; [apply new_sound|exact L]|exact Y|].
  exists p1, ms. split; auto. split; auto. split; auto. unfold errors_txt. rewrite Lg, !fault_lines_are, lines_app. reflexivity.
Qed.
Lemma errors_reported : exists value, good_values value /\
  forall E OD fuel file pw w p n e u x own r, order_ok OD -> parse_body E OD fuel file pw (new_parser file) = (w, Ok (None, p)) ->
  xget n (pxref p) = Some e -> x_type e = 1 -> 0 <= x_off e -> head_in (zdrop (x_off e) file) u -> scan value u x own r ->
  exists a b, errors_txt p = a ++ fault_lines own ++ b.
Proof.
  destruct errors_accounted as (value & GV & A). exists value. split; auto. intros E OD fuel file pw w p n e u x own r OK H X Ty O Hd Sc.
  destruct (A _ _ _ _ _ _ _ OK H) as (p1 & ms & _ & Xr & Er & Ac). rewrite Xr in X.
  destruct (accounted_reported _ _ _ _ _ _ _ _ _ _ GV Ac X Ty O Hd Sc) as (a & b & ->). rewrite Er, !lines_app.
  exists (errors_txt p1 ++ fault_lines a), (fault_lines b). rewrite <- !app_assoc. reflexivity.
Qed.
Lemma errors_clean : forall E OD fuel file pw w p, order_ok OD -> parse_body E OD fuel file pw (new_parser file) = (w, Ok (None, p)) ->
  (forall n, in_use (pxref p) n -> orderly file (pxref p) n) ->
  exists p1, load fuel E (o_objects OD) file pw (new_parser file) = Ok (None, p1) /\ errors_txt p = errors_txt p1.
Proof.
  destruct errors_accounted as (value & GV & A). intros E OD fuel file pw w p OK H C.
  destruct (A _ _ _ _ _ _ _ OK H) as (p1 & ms & L & Xr & Er & Ac). rewrite Xr in C. exists p1. split; auto.
  rewrite (accounted_clean _ _ _ _ GV Ac C) in Er. rewrite Er. apply app_nil_r.
Qed.
Lemma errors_unclosed : forall E OD fuel file pw w p n line eol d, order_ok OD -> parse_body E OD fuel file pw (new_parser file) = (w, Ok (None, p)) ->
  opened file (pxref p) n (line ++ eol ++ d) -> no_eol line -> eol_before eol d -> d <> [] ->
  exists a b, errors_txt p = a ++ lit "unclosed stream" ++ [x0a] ++ b.
Proof.
  destruct errors_accounted as (value & GV & A). intros E OD fuel file pw w p n line eol d OK H Op Nl Eb Dn.
  destruct (A _ _ _ _ _ _ _ OK H) as (p1 & ms & _ & Xr & Er & Ac). rewrite Xr in Op.
  destruct Op as (e & head & k & j & g & t & dd & g2 & X & Ty & O & Z & Hd & G & Tx & G2 & En & Oc).
  assert (Sd : stream_data value file (x_off e) d).
  { exists (g ++ t ++ g2 ++ lit "stream" ++ line ++ eol ++ d), (IObj (ODict dd)), [], g2, line, eol. split.
    { rewrite Z. eapply object_head_in; [exact Hd|]. eapply ScanP.dict_ends; eauto. }
    split; [|auto]. apply (gv_canonical _ GV); auto. exact I. }
  assert (I : In UnclosedStream ms).
  { eapply accounted_unclosed; eauto. intros (a & b & Q). apply Oc. exists (line ++ eol ++ a), b. rewrite Q, <- !app_assoc. reflexivity. }
  apply in_split in I. destruct I as (a & b & ->).
  rewrite Er. exists (errors_txt p1 ++ fault_lines a), (fault_lines b). rewrite lines_app. change (fault_lines (UnclosedStream :: b)) with ((lit "unclosed stream" ++ [x0a]) ++ fault_lines b).
  rewrite <- !app_assoc. reflexivity.
Qed.
