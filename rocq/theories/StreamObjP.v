(** StreamObjP.v -- streams read by GetObject: C33-C35, C42. *)
From Verif Require Import Base BaseP Msg Reader ReaderP Num Lexer Obj ReadObj Bits Filters Env Getters Crypt Stream GetObj
  Plain LexerP ReadObjP SpecLex SpecLexP SpecObj SpecNumP SpecRead ReadP RelP GetObjP SpecFetch FetchP TermP SpecStream StreamP.
From Coq Require Import Strings.String.

(** ** C34: the data between the markers *)
Lemma marker_first : forall d r, d <> [] -> ~ occurs marker d -> bseq (firstn 9 (d ++ marker ++ r)) marker = false.
Proof.
  intros d r N O. apply bseq_neq. intros H.
  destruct (Nat.le_gt_cases 9 (List.length d)) as [L|L].
  - rewrite firstn_app in H. replace (9 - List.length d)%nat with 0%nat in H by lia. rewrite firstn_O, app_nil_r in H.
    apply O. exists [], (skipn 9 d). cbn [app]. rewrite <- H, firstn_skipn. reflexivity.
  - do 9 (destruct d as [|? d]; [try congruence; cbn in H; congruence|]). cbn [List.length] in L. lia.
Qed.

Lemma p_loop_data : forall d r acc, ~ occurs marker d -> p_loop (d ++ marker ++ r) acc = (trim_eol (acc ++ d), r, []).
Proof.
  intros d. induction d as [|b d IH]; intros r acc O.
  - rewrite app_nil_r. reflexivity.
  - cbn [p_loop app]. change (b :: d ++ marker ++ r) with ((b :: d) ++ marker ++ r). rewrite marker_first; [|discriminate|auto].
    assert (X : (List.length (d ++ marker ++ r) <? 9)%nat = false).
    { apply Nat.ltb_ge. rewrite !app_length. cbn [marker List.length lit list_byte_of_string]. change (List.length marker) with 9%nat. lia. }
    rewrite X, IH, <- app_assoc. { reflexivity. }
    intros (a & c & ->). apply O. exists (b :: a), c. reflexivity.
Qed.
Lemma p_loop_open : forall t acc, t <> [] -> ~ occurs marker t -> p_loop t acc = (acc ++ t, [], [UnclosedStream]).
Proof.
  intros t. induction t as [|b t IH]; intros acc N O; [congruence|]. cbn [p_loop].
  destruct (bseq (firstn 9 (b :: t)) marker) eqn:M.
  { exfalso. apply bseq_eq in M. apply O. exists [], (skipn 9 (b :: t)). rewrite <- M. cbn [app]. rewrite firstn_skipn. reflexivity. }
  destruct (List.length t <? 9)%nat eqn:L; auto. rewrite IH, <- app_assoc; auto.
  - apply Nat.ltb_ge in L. destruct t; [simpl in L; lia|discriminate].
  - intros (a & c & ->). apply O. exists (b :: a), c. reflexivity.
Qed.

Lemma trim_eol_after : forall d e, eol_after d e -> trim_eol (d ++ e) = d.
Proof.
  intros d e H. unfold trim_eol. rewrite rev_app_distr. inversion H as [d' N|d' N|d'|d']; subst; cbn [rev app].
  - rewrite app_nil_r. destruct (rev d) as [|b r] eqn:E; auto.
    assert (D : d = rev r ++ [b]) by (rewrite <- (rev_involutive d), E; reflexivity).
    destruct (N _ _ D) as [A B]. destruct b; congruence || reflexivity.
  - destruct (rev d) as [|b r] eqn:E; [rewrite <- (rev_involutive d), E; reflexivity|].
    assert (D : d = rev r ++ [b]) by (rewrite <- (rev_involutive d), E; reflexivity).
    destruct b; try (rewrite <- E, rev_involutive; reflexivity). exfalso. apply (N (rev r)). exact D.
  - rewrite rev_involutive. destruct (rev d) as [|b r] eqn:E; [reflexivity|]. destruct b; reflexivity.
  - rewrite rev_involutive. reflexivity.
Qed.

Lemma occurs_eol : forall d e, eol_after d e -> ~ occurs marker d -> ~ occurs marker (d ++ e).
Proof.
  intros d e H O (a & b & Q).
  assert (HE : forall x, In x e -> x = x0a \/ x = x0d).
  { inversion H; subst; intros x Hx; simpl in Hx; intuition auto. }
  destruct (Nat.le_gt_cases (List.length a + 9) (List.length d)) as [L|L].
  - apply O. exists a, (skipn (List.length a + 9) d).
    assert (F : firstn (List.length a + 9) (d ++ e) = a ++ marker).
    { rewrite Q, app_assoc. rewrite firstn_app. replace (List.length a + 9)%nat with (List.length (a ++ marker)) by (rewrite app_length; reflexivity).
      rewrite firstn_all, Nat.sub_diag, firstn_O, app_nil_r. reflexivity. }
    rewrite firstn_app in F. replace (List.length a + 9 - List.length d)%nat with 0%nat in F by lia. rewrite firstn_O, app_nil_r in F.
    rewrite app_assoc, <- F, firstn_skipn. reflexivity.
  - assert (X : nth_error (d ++ e) (List.length a + 8) = Some "m"%byte).
    { rewrite Q, nth_error_app2 by lia. replace (List.length a + 8 - List.length a)%nat with 8%nat by lia. reflexivity. }
    rewrite nth_error_app2 in X by lia. apply nth_error_In in X. destruct (HE _ X); discriminate.
Qed.

Lemma p_skip_line : forall pre eol r, no_eol pre -> eol_before eol r -> p_skip (pre ++ eol ++ r) = Some r.
Proof.
  intros pre eol r. induction pre as [|b pre IH]; intros N H.
  - inversion H; subst; cbn; auto. apply beq_neq in H0. rewrite H0. reflexivity.
  - cbn [app p_skip]. destruct (N b) as [A B]; [left; auto|]. apply beq_neq in A, B. rewrite A, B. apply IH; auto. intros x Hx. apply N. right; auto.
Qed.

Lemma stream_head_unique : forall t k k', stream_head t k -> stream_head t k' -> k = k'.
Proof.
  intros t k k' (pre & eol & r & T & N & H & ->) (pre' & eol' & r' & T' & N' & H' & ->). subst t. revert pre' N' T'.
  induction pre as [|b pre IH]; intros [|b' pre'] N' T'.
  - inversion H; subst; inversion H'; subst; cbn in T'; try congruence; try reflexivity.
  - exfalso. cbn [app] in T'. destruct (N' b'); [left; auto|]. inversion H; subst; cbn [app] in T'; congruence.
  - exfalso. cbn [app] in T'. destruct (N b); [left; auto|]. inversion H'; subst; cbn [app] in T'; congruence.
  - cbn [app] in *. injection T' as <- T'. rewrite !zlen_cons. rewrite (IH ltac:(intros x Hx; apply N; right; auto) pre'); auto.
    intros x Hx; apply N'; right; auto.
Qed.

Lemma stream_data : forall file s pre eol data eol' r, wf file s -> no_eol pre ->
  rest s = pre ++ eol ++ data ++ eol' ++ lit "endstream" ++ r ->
  eol_before eol (data ++ eol' ++ lit "endstream" ++ r) -> ~ occurs (lit "endstream") data -> eol_after data eol' ->
  buffered (zlen (pre ++ eol) + 9) s ->
  exists s', read_stream_raw s = (Some data, s') /\ moved file s s' r [].
Proof.
  intros file s pre eol data eol' r W N Hr He O Ha B.
  assert (SH : stream_head (rest s) (zlen (pre ++ eol))) by (exists pre, eol, (data ++ eol' ++ lit "endstream" ++ r); auto).
  pose proof (read_stream_raw_plain file s W) as P.
  assert (PR : p_raw (rest s) = (Some data, r, [])).
  { unfold p_raw. rewrite Hr, (p_skip_line _ _ _ N He). fold marker in *. rewrite app_assoc, p_loop_data by (apply occurs_eol; auto).
    cbn [app]. rewrite trim_eol_after by auto. reflexivity. }
  rewrite PR in P. destruct P as (s' & R & S).
  { intros k Hk. rewrite (stream_head_unique _ _ _ Hk SH). exact B. }
  exists s'. split; auto. destruct S as (A1 & A2 & A3 & A4). split; auto. split; auto. split; [lia|]. congruence.
Qed.

(** no marker at all: everything is data *)
Lemma stream_open : forall file s pre eol data, wf file s -> no_eol pre -> rest s = pre ++ eol ++ data ->
  eol_before eol data -> data <> [] -> ~ occurs (lit "endstream") data -> buffered (zlen (pre ++ eol) + 9) s ->
  exists s', read_stream_raw s = (Some data, s') /\ moved file s s' [] [UnclosedStream].
Proof.
  intros file s pre eol data W N Hr He Hd O B.
  assert (SH : stream_head (rest s) (zlen (pre ++ eol))) by (exists pre, eol, data; auto).
  pose proof (read_stream_raw_plain file s W) as P.
  assert (PR : p_raw (rest s) = (Some data, [], [UnclosedStream])).
  { unfold p_raw. rewrite Hr, (p_skip_line _ _ _ N He). fold marker in *. rewrite p_loop_open by auto. reflexivity. }
  rewrite PR in P. destruct P as (s' & R & S).
  { intros k Hk. rewrite (stream_head_unique _ _ _ Hk SH). exact B. }
  exists s'. split; auto. destruct S as (A1 & A2 & A3 & A4). split; auto. split; auto. split; [lia|auto].
Qed.

(** ** C35 *)
Definition raw_alike (s1 s2 : rd) (x y : option bytes * rd) : Prop :=
  fst x = fst y /\ rest (snd x) = rest (snd y) /\ pos (snd x) - pos s1 = pos (snd y) - pos s2 /\
  exists ms, log (snd x) = log s1 ++ ms /\ log (snd y) = log s2 ++ ms.
Lemma stream_unbuffered : forall f1 f2 s1 s2, wf f1 s1 -> wf f2 s2 -> rest s1 = rest s2 ->
  (forall k, stream_head (rest s1) k -> buffered (k + 9) s1 /\ buffered (k + 9) s2) ->
  raw_alike s1 s2 (read_stream_raw s1) (read_stream_raw s2).
Proof.
  intros f1 f2 s1 s2 W1 W2 H B.
  pose proof (read_stream_raw_plain f1 s1 W1) as P1. pose proof (read_stream_raw_plain f2 s2 W2) as P2. rewrite H in P1, B.
  destruct (p_raw (rest s2)) as [[d r] ms]. destruct P1 as (t1 & R1 & S1); [intros k Hk; apply B; auto|].
  destruct P2 as (t2 & R2 & S2); [intros k Hk; apply B; auto|]. rewrite R1, R2. unfold raw_alike. cbn [fst snd].
  destruct S1 as (_ & A1 & A2 & A3). destruct S2 as (_ & B1 & B2 & B3). split; auto. split; [congruence|]. split; [lia|eauto].
Qed.

(** ** The window behind an object's offset *)
Definition near (file : bytes) (off : Z) (s : rd) : Prop :=
  wf file s /\ off <= pos s /\ (last s <> None -> off < pos s) /\
  ((buf s = 0 /\ last s = None) \/ Z.min (off + bufsize) (zlen file) <= pos s + buf s).
Definition nearR (file : bytes) (off : Z) (s t : rd) : Prop := s = t /\ near file off s.

Lemma rest_zlen : forall file s, wf file s -> zlen (rest s) = Z.max 0 (zlen file - pos s).
Proof.
  intros file s W. rewrite (wf_rest _ _ W), zdrop_skipn by apply W. unfold zlen. rewrite skipn_length. pose proof (wf_pos _ _ W). lia.
Qed.
Lemma filled_near : forall file s, wf file s -> rest s <> [] -> pos s + filled s = Z.min (pos s + bufsize) (zlen file) /\ 0 < filled s.
Proof.
  intros file s W N. unfold filled. pose proof (rest_zlen _ _ W) as L.
  assert (0 < zlen (rest s)) by (unfold zlen; destruct (rest s); [congruence|cbn [List.length]; lia]). unfold bufsize. lia.
Qed.

Lemma near_respects : forall file off, respects file (nearR file off).
Proof.
  intros file off. pose proof (keeps_respects file) as KR. split.
  - intros s t [-> _]; reflexivity.
  - intros s t [-> _]; reflexivity.
  - intros s t [<- (W & O & L & B)]. split; auto. split; auto. split; [apply (r_rb _ _ KR s s (conj eq_refl W))|].
    unfold read_byte. destruct (rest s) as [|b r] eqn:E; [cbn [snd]; auto|]. cbn [snd pos last buf].
    destruct (filled_near file s W) as [F F0]; [congruence|]. split; [lia|]. split; [lia|]. right.
    destruct (buf s =? 0) eqn:Z0; [|apply Z.eqb_neq in Z0]; lia.
  - intros s t [<- (W & O & L & B)]. split; auto. split; [apply (r_ub _ _ KR s s (conj eq_refl W))|].
    unfold unread_byte. destruct (last s) as [b|] eqn:E; [|rewrite E; auto]. cbn [pos last buf].
    specialize (L ltac:(discriminate)). split; [lia|]. split; [congruence|]. right. destruct B as [[_ B]|B]; [congruence|lia].
  - intros m s t [<- (W & O & L & B)]. split; auto. split; [apply (r_le _ _ KR m s s (conj eq_refl W))|]. cbn [log_error pos last buf]. auto.
  - intros s t [<- (W & O & L & B)]. split; auto. split; auto. split; [apply (r_pk _ _ KR s s (conj eq_refl W))|].
    unfold peek2. cbn [snd pos last buf]. split; auto. split; [congruence|].
    destruct (rest s) as [|b r] eqn:E.
    + unfold filled. rewrite E. change (zlen (@nil byte)) with 0. destruct (buf s <? 2) eqn:Z0; [|apply Z.ltb_ge in Z0; right; lia].
      left. split; auto. 
    + destruct (filled_near file s W) as [F F0]; [congruence|]. right. destruct (buf s <? 2) eqn:Z0; [|apply Z.ltb_ge in Z0]; lia.
  - intros s t n [<- (W & O & L & B)] Hn. split; auto. split; [apply (r_dc _ _ KR s s n (conj eq_refl W) Hn)|].
    unfold peek2 in *. cbn [snd discard pos last buf fst] in *. split; [lia|]. split; [congruence|].
    destruct (rest s) as [|b r] eqn:E.
    + cbn in Hn. assert (n = 0%nat) by lia. subst n. unfold filled. rewrite E. change (zlen (@nil byte)) with 0.
      destruct (buf s <? 2) eqn:Z0; [|apply Z.ltb_ge in Z0; right; lia]. left. split; auto.
    + destruct (filled_near file s W) as [F F0]; [congruence|]. right. destruct (buf s <? 2) eqn:Z0; [|apply Z.ltb_ge in Z0]; lia.
  - intros s t n Hn [<- (W & O & L & B)]. split; auto. split; auto. split; [apply (r_ru _ _ KR s s n Hn (conj eq_refl W))|].
    unfold read_upto. destruct (rest s) as [|b r] eqn:E; [cbn [snd]; auto|]. cbn [snd pos last buf].
    destruct (filled_near file s W) as [F F0]; [congruence|].
    assert (0 < (if buf s =? 0 then filled s else buf s)).
    { pose proof (wf_buf _ _ W). destruct (buf s =? 0) eqn:Z0; [|apply Z.eqb_neq in Z0]; lia. }
    split; [lia|]. split; [lia|]. right. destruct (buf s =? 0) eqn:Z0; [|apply Z.eqb_neq in Z0]; lia.
  - intros s0 s t [<- (W & O & L & B)] (t0 & <- & W0 & O0 & _). split; auto. split; [apply seek_wf; auto|].
    unfold seek. pose proof (wf_pos _ _ W0). destruct (pos s0 <? 0) eqn:Z0; [apply Z.ltb_lt in Z0; lia|]. cbn [pos last buf].
    split; auto. split; [congruence|]. left; auto.
Qed.

Lemma near_seek : forall file off s, 0 <= off -> near file off (seek file off s).
Proof.
  intros file off s H. split; [apply sk_nonneg; auto|]. unfold seek. destruct (off <? 0) eqn:E; [apply Z.ltb_lt in E; lia|].
  cbn [pos last buf]. split; [lia|]. split; [congruence|]. left; auto.
Qed.
Lemma near_buffered : forall file off s k, near file off s -> pos s + k <= off + bufsize -> buffered k s.
Proof.
  intros file off s k (W & O & _ & B) H. unfold buffered. pose proof (rest_zlen _ _ W).
  destruct B as [[B _]|B]; [right; split; auto; lia|]. left. pose proof (wf_buf _ _ W). lia.
Qed.

(** ** Reading up to the keyword "stream" *)
Lemma gap_no_digit_ne : forall g l, gap g -> g <> [] -> no_digit (g ++ l).
Proof. intros g l H N. pose proof (gap_no_digit g [] H I) as X. destruct g; [congruence|exact X]. Qed.
Ltac regular := let c := fresh "c" in let Hc := fresh "Hc" in intros c Hc; simpl in Hc;
  repeat destruct Hc as [<-|Hc]; try contradiction;
  (split; intros Hc; [apply is_ws_spec in Hc; discriminate|apply is_delim_spec in Hc; discriminate]).
Lemma p_keyword_text : forall g t r b, gap g -> (forall c, In c (b :: t) -> regular_byte c) -> ends_token r -> p_keyword (g ++ (b :: t) ++ r) = (b :: t, r).
Proof.
  intros g t r b G T He. unfold p_keyword. rewrite gap_ws_app by auto. cbn [app]. rewrite p_ws_id. { exact (kw_text_p (b :: t) r T He). }
  - destruct (beq b "%"%byte) eqn:Q; auto. apply beq_eq in Q. subst b. destruct (T "%"%byte) as [_ D]; [left; auto|]. exfalso. apply D. apply is_delim_spec. reflexivity.
  - destruct (is_ws b) eqn:Q; auto. apply is_ws_spec in Q. destruct (T b) as [W _]; [left; auto|contradiction].
Qed.

Lemma read_object_header_text : forall file s t n g r e lg, object_head t n g -> ends_token r -> St file s (t ++ r) e lg ->
  exists s', read_object_header s = ((wrap64 n, wrap64 g, true), s') /\ St file s' r e lg.
Proof.
  intros file s t n g r e lg H He S. inversion H as [g0 a n' g1 b g' g2 G0 A G1 N1 B G2]; subst. rewrite <- !app_assoc in S.
  unfold read_object_header.
  assert (P1 : p_int (g0 ++ a ++ g1 ++ b ++ g2 ++ lit "obj" ++ r) = ((wrap64 n, true), g1 ++ b ++ g2 ++ lit "obj" ++ r)).
  { apply p_int_text; auto. apply gap_no_digit_ne; auto. }
  assert (P2 : p_int (g1 ++ b ++ g2 ++ lit "obj" ++ r) = ((wrap64 g, true), g2 ++ lit "obj" ++ r)).
  { apply p_int_text; auto. apply gap_no_digit; auto. reflexivity. }
  assert (NE : forall l v r, p_int l = ((v, true), r) -> p_ws l <> []).
  { intros l v r0 X. unfold p_int in X. destruct (p_ws l); discriminate. }
  destruct (read_int_sim file s _ _ _ S (NE _ _ _ P1)) as (s1 & R1 & S1). rewrite R1, P1 in *. cbn [fst snd] in *.
  destruct (read_int_sim file s1 _ _ _ S1 (NE _ _ _ P2)) as (s2 & R2 & S2). rewrite R2, P2 in *. cbn [fst snd] in *.
  destruct (read_keyword_sim file s2 _ _ _ S2) as (s3 & R3 & S3). rewrite R3.
  assert (P3 : p_keyword (g2 ++ lit "obj" ++ r) = (lit "obj", r)).
  { apply (p_keyword_text g2 (lit "bj") r "o"); auto. regular. }
  rewrite P3 in *. cbn [fst snd] in *. exists s3. auto.
Qed.

Lemma stream_object_state : forall file off s head n g g1 t d g2 tail dec f, near file off s -> object_head head n g -> gap g1 ->
  obj_text t (ODict d) -> gap g2 -> ends_token tail -> (forall v, dec v = Ok (f v)) ->
  rest s = head ++ g1 ++ t ++ g2 ++ lit "stream" ++ tail ->
  exists s2 s3, ReadObject file dec (snd (read_object_header s)) = Ok ((map_strings f (ODict d), ENone), s2) /\
    read_keyword s2 = (lit "stream", s3) /\ near file off s3 /\ moved file s s3 tail [].
Proof.
  intros file off s head n g g1 t d g2 tail dec f N H G1 T G2 Te D Hr. pose proof (near_respects file off) as NR.
  assert (NS : nearR file off s s) by (split; auto).
  pose proof (St_intro _ _ (proj1 N)) as S. rewrite Hr in S.
  assert (E1 : ends_token (g1 ++ t ++ g2 ++ lit "stream" ++ tail)).
  { inversion T; subst. inversion G1; subst; cbn [app]; right; eexists; eexists; (split; [reflexivity|]).
    - right. apply is_delim_spec. reflexivity.
    - left; auto.
    - right. apply is_delim_spec. reflexivity. }
  destruct (read_object_header_text _ _ _ _ _ _ _ _ H E1 S) as (s1 & R1 & S1).
  pose proof (read_object_header_rel file _ NR s s NS) as [_ N1]. rewrite R1 in *. cbn [snd] in *.
  destruct S1 as (W1 & Hr1 & He1 & Hl1).
  destruct (read_object_text file dec f s1 g1 t (ODict d) (g2 ++ lit "stream" ++ tail) W1 D G1 T I) as (s2 & R2 & M2); [rewrite Hr1; reflexivity|].
  pose proof (ReadObject_rel file _ NR dec s1 s1 N1) as N2. rewrite R2 in N2. destruct N2 as [_ N2].
  destruct M2 as (W2 & Hr2 & Hp2 & Hl2).
  destruct (read_keyword_sim file s2 _ _ _ (St_intro _ _ W2)) as (s3 & R3 & S3). rewrite Hr2 in R3, S3.
  assert (P3 : p_keyword (g2 ++ lit "stream" ++ tail) = (lit "stream", tail)).
  { apply (p_keyword_text g2 (lit "tream") tail "s"); auto. regular. }
  rewrite P3 in *. cbn [fst snd] in *.
  pose proof (read_keyword_rel file _ NR s2 s2 N2) as [_ N3]. rewrite R3 in N3. cbn [snd] in N3.
  exists s2, s3. split; auto. split; auto. split; [apply N3|].
  destruct S3 as (W3 & Hr3 & He3 & Hl3). split; auto. split; auto. rewrite app_nil_r in *. split; [|congruence].
  rewrite Hr. rewrite Hr1 in *. lia.
Qed.

(** ** Dictionaries *)
Lemma key_of_dget : forall k d x, key_of k d x -> dget k d = x.
Proof.
  intros k d x. unfold dget. induction d as [|[k' v] d IH]; intros H.
  - destruct x; auto. destruct H as (d1 & d2 & H & _). destruct d1; discriminate.
  - cbn [mget]. destruct (bseq k k') eqn:Q.
    + apply bseq_eq in Q. subst k'. destruct x as [y|].
      * destruct H as ([|[k1 v1] d1] & d2 & H & N); cbn [app] in H; injection H as; subst; auto. exfalso. apply N. left; auto.
      * exfalso. apply H. left; auto.
    + apply bseq_neq in Q. apply IH. destruct x as [y|].
      * destruct H as ([|[k1 v1] d1] & d2 & H & N); cbn [app] in H; injection H as; subst; [congruence|]. exists d1, d2. split; auto. intros X. apply N. right; auto.
      * intros X. apply H. right; auto.
Qed.

Definition found (x : option obj) : obj * bool := match x with Some o => (o, true) | None => (KEYWORD_NULL, false) end.
Lemma d_object_direct : forall rs d k x p, key_of k d x -> (forall o, x = Some o -> direct o) -> d_object rs d k p = Ok (found x, p).
Proof.
  intros rs d k x p H D. unfold d_object. rewrite (key_of_dget _ _ _ H). destruct x as [o|]; [|reflexivity].
  specialize (D o eq_refl). destruct o; try reflexivity. exfalso. eapply D; reflexivity.
Qed.
Lemma a_object_direct : forall rs l i p, (forall o, In o l -> direct o) -> a_object rs l i p = Ok (found (zget l i), p).
Proof.
  intros rs l i p D. unfold a_object. destruct (zget l i) as [o|] eqn:Z; [|reflexivity].
  assert (X : direct o). { apply D. rewrite zget_element in Z. unfold element in Z. destruct (i <? 0); [discriminate|]. eapply nth_error_In; eauto. }
  destruct o; try reflexivity. exfalso. eapply X; reflexivity.
Qed.

Lemma int_or_parm : forall rs d k z v p, int_parm d k z v -> int_or rs d k z p = Ok (v, p).
Proof.
  intros rs d k z v p H. unfold int_or, d_int, bind. inversion H; subst.
  - rewrite (d_object_direct rs d k (Some (ONum q))); auto. intros o Q; injection Q as <-. intros a b; discriminate.
  - rewrite (d_object_direct rs d k None); auto. discriminate.
  - rewrite (d_object_direct rs d k (Some o)); auto. { destruct o; try reflexivity. exfalso; eapply H2; reflexivity. }
    intros o' Q; injection Q as <-; auto.
Qed.

Lemma rev_predictor_spec : forall pm data out, predicted pm data out ->
  exists f0, forall rs fuel p, (f0 <= fuel)%nat -> rev_predictor rs fuel data pm p = Ok (out, p).
Proof.
  intros pm data out (pr & b & c & w & f0 & P & B & C & W & R). exists f0. intros rs fuel p L. unfold rev_predictor, bind.
  rewrite (int_or_parm _ _ _ _ _ _ P), (int_or_parm _ _ _ _ _ _ B), (int_or_parm _ _ _ _ _ _ C), (int_or_parm _ _ _ _ _ _ W).
  destruct (reverse_predictor_mono f0 fuel pr b c w data L) as [Q|Q]; [congruence|]. unfold lift. rewrite <- Q, R. reflexivity.
Qed.

Lemma zlen_is0 : forall A (l : list A), (zlen l =? 0) = true <-> l = [].
Proof. intros A [|x l]; split; auto; intros H; [|discriminate]. apply Z.eqb_eq in H. rewrite zlen_cons in H. pose proof (zlen_nonneg _ l). lia. Qed.
Lemma kept_data : forall (mid : bytes) err, mid <> [] \/ err = false -> (zlen mid =? 0) && err = false.
Proof.
  intros mid err [H| ->]; [|apply andb_false_r]. destruct (zlen mid =? 0) eqn:Q; auto. apply zlen_is0 in Q. congruence.
Qed.

Lemma decode_stream_spec : forall E f pm x y, stage E f pm x y ->
  exists f0, forall rs fuel p, (f0 <= fuel)%nat -> decode_stream E rs fuel f x pm p = Ok (y, p).
Proof.
  intros E f pm x y H.
  inversion H as [?|?|? ? data N|? data D|? data D|? data D N|? data D N|? data D N|? data mid err out D Z K P|? data early D Ea L|? data early mid err out D Ea L K P]; subst.
  - exists 0%nat. reflexivity.
  - exists 0%nat. reflexivity.
  - exists 0%nat. intros rs fuel p _. destruct data as [|b data]; [reflexivity|]. unfold decode_stream.
    assert (Q : forall k, In k known_filters -> bseq f k = false) by (intros k Hk; apply bseq_neq; intros ->; auto).
    rewrite !Q by (cbn; auto 6). reflexivity.
  - exists 0%nat. intros rs fuel p _. destruct data as [|b data]; [congruence|]. reflexivity.
  - exists 0%nat. intros rs fuel p _. destruct data as [|b data]; [congruence|]. reflexivity.
  - exists 0%nat. intros rs fuel p _. destruct data as [|b data]; [congruence|]. unfold decode_stream. rewrite bseq_refl.
    change (bseq (lit "RunLengthDecode") (lit "ASCIIHexDecode")) with false. change (bseq (lit "RunLengthDecode") (lit "ASCII85Decode")) with false.
    cbv iota. destruct (run_length_decode (b :: data)); [congruence|reflexivity].
  - exists 0%nat. intros rs fuel p _. destruct data as [|b data]; [congruence|]. unfold decode_stream. rewrite bseq_refl.
    change (bseq (lit "RunLengthDecode") (lit "ASCIIHexDecode")) with false. change (bseq (lit "RunLengthDecode") (lit "ASCII85Decode")) with false.
    cbv iota. rewrite N. reflexivity.
  - exists 0%nat. intros rs fuel p _. destruct data as [|b data]; [congruence|]. unfold decode_stream.
    change (bseq (lit "FlateDecode") (lit "ASCIIHexDecode")) with false. change (bseq (lit "FlateDecode") (lit "ASCII85Decode")) with false.
    change (bseq (lit "FlateDecode") (lit "RunLengthDecode")) with false. rewrite bseq_refl. cbv iota.
    unfold bind, flate_decode. destruct N as [-> | ->]; reflexivity.
  - destruct (rev_predictor_spec _ _ _ P) as (f0 & R). exists f0. intros rs fuel p Lf. destruct data as [|b data]; [congruence|]. unfold decode_stream.
    change (bseq (lit "FlateDecode") (lit "ASCIIHexDecode")) with false. change (bseq (lit "FlateDecode") (lit "ASCII85Decode")) with false.
    change (bseq (lit "FlateDecode") (lit "RunLengthDecode")) with false. rewrite bseq_refl. cbv iota.
    unfold bind, flate_decode. rewrite Z, (kept_data _ _ K), R by auto. reflexivity.
  - exists 0%nat. intros rs fuel p _. destruct data as [|b data]; [congruence|]. unfold decode_stream.
    change (bseq (lit "LZWDecode") (lit "ASCIIHexDecode")) with false. change (bseq (lit "LZWDecode") (lit "ASCII85Decode")) with false.
    change (bseq (lit "LZWDecode") (lit "RunLengthDecode")) with false. change (bseq (lit "LZWDecode") (lit "FlateDecode")) with false.
    rewrite bseq_refl. cbv iota. unfold lzw_decode, bind. rewrite (int_or_parm _ _ _ _ _ _ Ea).
    destruct L as [[-> ->]|[Ne L]]; [reflexivity|]. apply Z.eqb_neq in Ne. rewrite Ne, L. reflexivity.
  - destruct (rev_predictor_spec _ _ _ P) as (f0 & R). exists f0. intros rs fuel p Lf. destruct data as [|b data]; [congruence|]. unfold decode_stream.
    change (bseq (lit "LZWDecode") (lit "ASCIIHexDecode")) with false. change (bseq (lit "LZWDecode") (lit "ASCII85Decode")) with false.
    change (bseq (lit "LZWDecode") (lit "RunLengthDecode")) with false. change (bseq (lit "LZWDecode") (lit "FlateDecode")) with false.
    rewrite bseq_refl. cbv iota. unfold lzw_decode, bind. rewrite (int_or_parm _ _ _ _ _ _ Ea).
    destruct L as [[-> L]|[Ne L]].
    + rewrite Z.eqb_refl, L, (kept_data _ _ K), R by auto. reflexivity.
    + apply Z.eqb_neq in Ne. rewrite Ne, L, (kept_data _ _ K), R by auto. reflexivity.
Qed.

Lemma zget_skipn : forall (l : list obj) i, 0 <= i -> zget l i = hd_error (skipn (Z.to_nat i) l).
Proof.
  intros l i H. rewrite zget_element. unfold element. destruct (i <? 0) eqn:Q; [apply Z.ltb_lt in Q; lia|].
  generalize (Z.to_nat i) as k. clear. induction l as [|x l IH]; intros [|k]; try reflexivity. apply IH.
Qed.
Lemma skipn_tl : forall A k (l : list A), tl (skipn k l) = skipn (S k) l.
Proof. intros A k. induction k as [|k IH]; intros [|x l]; try reflexivity. cbn [skipn]. rewrite IH. reflexivity. Qed.

Lemma decode_loop_spec : forall E fl pl x z, decoded E fl pl x z -> forall FL PL i, 0 <= i ->
  (forall o, In o FL -> direct o) -> (forall o, In o PL -> direct o) ->
  skipn (Z.to_nat i) FL = fl -> skipn (Z.to_nat i) PL = pl ->
  exists f0, forall rs fuel p, (f0 <= fuel)%nat -> decode_loop E rs fuel (List.length fl) i FL PL x p = Ok (z, p).
Proof.
  intros E fl pl x z H. induction H as [pl x|f fl pl x y z St Dc IH]; intros FL PL i Hi DF DP SF SP.
  - exists 0%nat. reflexivity.
  - destruct (decode_stream_spec _ _ _ _ _ St) as (f1 & R1).
    destruct (IH FL PL (i + 1)) as (f2 & R2); auto; try lia.
    { replace (Z.to_nat (i + 1)) with (S (Z.to_nat i)) by lia. rewrite <- skipn_tl, SF. reflexivity. }
    { replace (Z.to_nat (i + 1)) with (S (Z.to_nat i)) by lia. rewrite <- skipn_tl, SP. reflexivity. }
    exists (Nat.max f1 f2). intros rs fuel p L. cbn [decode_loop List.length]. unfold bind, a_name, a_dict, bind.
    rewrite a_object_direct by auto. rewrite zget_skipn by lia. rewrite SF. unfold ret at 1. cbn [hd_error found].
    assert (N : fst (as_name (f, true)) = filter_name f) by (destruct f; reflexivity).
    destruct (as_name (f, true)) as [nm ok]. cbn [fst] in N. subst nm.
    rewrite a_object_direct by auto. rewrite zget_skipn by lia. rewrite SP. unfold ret at 1.
    assert (P : fst (as_dict (found (hd_error pl))) = parm_dict pl) by (destruct pl as [|[] pl]; reflexivity).
    destruct (as_dict (found (hd_error pl))) as [dp okd]. cbn [fst] in P. subst dp.
    rewrite R1 by lia. apply R2. lia.
Qed.

Lemma filter_list_spec : forall rs d fl p, filters_of d fl -> filter_list rs d p = Ok (fl, p) /\ (forall o, In o fl -> direct o).
Proof.
  intros rs d fl p H. unfold filter_list, d_array, d_name, bind. inversion H; subst.
  - rewrite (d_object_direct _ _ _ _ _ H0); [split; auto|]. intros o Q; injection Q as <-. intros a b; discriminate.
  - assert (D : forall o, Some (OName n) = Some o -> direct o) by (intros o Q; injection Q as <-; intros a b; discriminate).
    rewrite (d_object_direct _ _ _ _ _ H0) by auto. cbn [found as_array ret]. rewrite (d_object_direct _ _ _ _ _ H0) by auto.
    split; auto. intros o [<-|[]]. intros a b; discriminate.
  - assert (D : forall o, None = Some o -> direct o) by discriminate.
    rewrite (d_object_direct _ _ _ _ _ H0) by auto. cbn [found as_array ret KEYWORD_NULL]. unfold ret. rewrite (d_object_direct _ _ _ _ _ H0) by auto.
    split; auto. intros o [].
Qed.
Lemma parms_list_spec : forall rs d fl p, parms_of d fl -> parms_list rs d p = Ok (fl, p) /\ (forall o, In o fl -> direct o).
Proof.
  intros rs d fl p H. unfold parms_list, d_array, d_dict, bind. inversion H; subst.
  - rewrite (d_object_direct _ _ _ _ _ H0); [split; auto|]. intros o Q; injection Q as <-. intros a b; discriminate.
  - assert (D : forall o, Some (ODict p0) = Some o -> direct o) by (intros o Q; injection Q as <-; intros a b; discriminate).
    rewrite (d_object_direct _ _ _ _ _ H0) by auto. cbn [found as_array ret]. rewrite (d_object_direct _ _ _ _ _ H0) by auto.
    split; auto. intros o [<-|[]]. intros a b; discriminate.
  - assert (D : forall o, None = Some o -> direct o) by discriminate.
    rewrite (d_object_direct _ _ _ _ _ H0) by auto. cbn [found as_array ret KEYWORD_NULL]. unfold ret. rewrite (d_object_direct _ _ _ _ _ H0) by auto.
    split; auto. intros o [].
Qed.

Lemma default_crypt_spec : forall rs h d c p, default_crypt h d c ->
  exists t ok, d_name rs d (lit "Type") p = Ok ((t, ok), p) /\ (if ok && bseq t (lit "EmbeddedFile") then sh_file h else sh_stream h) = c.
Proof.
  intros rs h d c p H. unfold d_name, bind. inversion H as [K|x K D N]; subst.
  - rewrite (d_object_direct _ _ _ _ _ K); [|intros o Q; injection Q as <-; intros a b; discriminate]. eexists. eexists. split; reflexivity.
  - rewrite (d_object_direct _ _ _ _ _ K) by auto. destruct (as_name (found x)) as [t ok] eqn:Q. exists t, ok. split; [reflexivity|].
    destruct x as [[]|]; cbn in Q; injection Q as <- <-; try reflexivity. cbn [andb]. destruct (bseq v (lit "EmbeddedFile")) eqn:B; auto.
    apply bseq_eq in B. subst v. congruence.
Qed.
Lemma mget_In : forall A k (v : A) m, In (k, v) m -> NoDup (map fst m) -> mget bseq k m = Some v.
Proof.
  intros A k v m. induction m as [|[k' w] m IH]; intros I N; [contradiction|]. cbn [mget map fst] in *. inversion N; subst.
  destruct I as [I|I].
  - injection I as -> ->. rewrite bseq_refl. reflexivity.
  - destruct (bseq k k') eqn:Q; [|auto]. apply bseq_eq in Q. subst k'. exfalso. apply H1. apply in_map_iff. exists (k, v). auto.
Qed.
Lemma mget_notin : forall A k (m : list (bytes * A)), ~ In k (map fst m) -> mget bseq k m = None.
Proof.
  intros A k m. induction m as [|[k' w] m IH]; intros N; auto. cbn [mget map fst] in *. destruct (bseq k k') eqn:Q.
  - apply bseq_eq in Q. subst. exfalso. apply N. left; auto.
  - apply IH. intros X. apply N. right; auto.
Qed.

Lemma choose_crypt_spec : forall rs h d enc fl pl c fl' pl' p, stream_crypt h d enc fl pl c fl' pl' -> psh p = h ->
  (forall o, In o fl -> direct o) -> (forall o, In o pl -> direct o) ->
  choose_crypt rs enc d fl pl p = Ok ((c, (fl', pl')), p).
Proof.
  intros rs h d enc fl pl c fl' pl' p H Hh DF DP. inversion H as [fl0 pl0|fl0 pl0 c0 DC N|fl0 pl0 n c0 c1 DC CN I ND]; subst; unfold choose_crypt.
  - reflexivity.
  - destruct (default_crypt_spec rs _ _ _ p DC) as (t & ok & R & C). unfold bind at 1. rewrite R, C.
    destruct fl' as [|f fl']; [reflexivity|]. unfold a_name, bind. rewrite a_object_direct by auto. cbn [zget found].
    change (zget (f :: fl') 0) with (Some f). unfold ret at 1. cbn [found].
    destruct (as_name (f, true)) as [nm okn] eqn:Q. destruct (bseq nm (lit "Crypt")) eqn:B; [|reflexivity].
    apply bseq_eq in B. subst nm. destruct f; cbn in Q; try discriminate. injection Q as -> _. exfalso. eapply N; reflexivity.
  - destruct (default_crypt_spec rs _ _ _ p DC) as (t & ok & R & C). unfold bind at 1. rewrite R, C.
    unfold a_name, a_dict, d_name, bind. rewrite a_object_direct by auto. change (zget (OName (lit "Crypt") :: fl') 0) with (Some (OName (lit "Crypt"))).
    cbn [found as_name ret]. unfold ret at 1. rewrite bseq_refl. rewrite a_object_direct by auto. unfold ret at 1.
    assert (P : fst (as_dict (found (zget pl 0))) = parm_dict pl) by (destruct pl as [|[] pl']; reflexivity).
    destruct (as_dict (found (zget pl 0))) as [dp okd]. cbn [fst] in P. subst dp.
    assert (M : match mget bseq n (sh_filters (psh p)) with Some c => c | None => c1 end = c).
    { destruct I as [I|[I ->]]; [rewrite (mget_In _ _ _ _ I ND); reflexivity|rewrite mget_notin by auto; reflexivity]. }
    inversion CN as [n' K|K]; subst n.
    + rewrite (d_object_direct _ _ _ _ _ K); [|intros o Q; injection Q as <-; intros a b; discriminate]. cbn [found as_name]. unfold ret. rewrite M. reflexivity.
    + rewrite (d_object_direct _ _ _ _ _ K) by discriminate. cbn [found as_name KEYWORD_NULL]. unfold ret. rewrite M. reflexivity.
Qed.

(** ** GetObject on a stream object; [f0] depends on the data only *)
Lemma stream_object_from : forall E file v fl pl c fl' pl' fd out h enc, filters_of v fl -> parms_of v pl ->
  stream_crypt h v enc fl pl c fl' pl' -> decoded E fl' pl' (Some fd) out -> exists f0,
  forall p n e head hn hg g1 t d g2 pre eol data eol' r fs fuel,
  reads file p -> xget n (pxref p) = Some e -> x_type e = 1 -> 0 <= x_off e -> psh p = h -> x_enc e = enc ->
  object_head head hn hg -> gap g1 -> obj_text t (ODict d) -> gap g2 -> no_eol pre -> ends_token (pre ++ eol) ->
  eol_before eol (data ++ eol' ++ lit "endstream" ++ r) -> ~ occurs (lit "endstream") data -> eol_after data eol' ->
  zdrop (x_off e) file = head ++ g1 ++ t ++ g2 ++ lit "stream" ++ pre ++ eol ++ data ++ eol' ++ lit "endstream" ++ r ->
  zlen (head ++ g1 ++ t ++ g2 ++ lit "stream" ++ pre ++ eol) + 9 <= bufsize ->
  (forall s, new_decryptor E (if x_enc e then sh_string (psh p) else CFNone) n (x_gen e) s = Ok (fs s)) ->
  map_strings fs (ODict d) = ODict v -> new_decryptor E c n (x_gen e) data = Ok fd -> (f0 <= fuel)%nat ->
  exists s', GetObject fuel E file n p = Ok ({| inum := n; igen := x_gen e; ival := ODict v; istream := out |}, with_rd s' p) /\
    wf file s' /\ log s' = log (prd p).
Proof.
  intros E file v fl pl c fl' pl' fd out h enc FO PO SC DC.
  assert (DL : (forall o, In o fl' -> direct o) /\ (forall o, In o pl' -> direct o)).
  { set (p := {| prd := open_rd []; pxref := []; ptrailer := []; psh := h |}).
    destruct (filter_list_spec (fun _ => mpanic) _ _ p FO) as [_ DF]. destruct (parms_list_spec (fun _ => mpanic) _ _ p PO) as [_ DP].
    inversion SC; subst; auto. split; [intros o I; apply DF; right; auto|]. intros o I. apply DP. destruct pl; [contradiction|right; auto]. }
  destruct DL as [DF DP].
  destruct (decode_loop_spec E fl' pl' _ _ DC fl' pl' 0 ltac:(lia) DF DP eq_refl eq_refl) as (f0 & R).
  exists (S f0). intros p n e head hn hg g1 t d g2 pre eol data eol' r fs fuel W X T O Hh He H G1 OT G2 NE ET EB NO EA F Wd DS MS DD L.
  subst h enc.
  set (s := seek file (x_off e) (prd p)).
  assert (N : near file (x_off e) s) by (apply near_seek; auto).
  destruct (sk_nonneg file (x_off e) (prd p) O) as (_ & Hr & Hp & Hl). fold s in Hr, Hp, Hl. rewrite F in Hr, Hp.
  assert (Hpos : pos s = x_off e) by (unfold s, seek; destruct (x_off e <? 0) eqn:Q; [apply Z.ltb_lt in Q; lia|reflexivity]).
  set (tail := pre ++ eol ++ data ++ eol' ++ lit "endstream" ++ r) in *.
  assert (ET' : ends_token tail).
  { destruct ET as [ET|(b & l & ET & B)].
    - exfalso. destruct pre; [|discriminate]. inversion EB; subst; discriminate.
    - right. unfold tail. rewrite app_assoc, ET. exists b, (l ++ data ++ eol' ++ lit "endstream" ++ r). split; auto. }
  destruct (stream_object_state file (x_off e) s head hn hg g1 t d g2 tail _ fs N H G1 OT G2 ET' DS Hr) as (s2 & s3 & R2 & R3 & N3 & M3).
  destruct M3 as (W3 & Hr3 & Hp3 & Hl3).
  destruct (stream_data file s3 pre eol data eol' r W3 NE Hr3 EB NO EA) as (s4 & R4 & M4).
  { eapply near_buffered; [exact N3|]. rewrite Hp3, Hpos, Hr. unfold tail. rewrite !zlen_app in *. lia. }
  destruct fuel as [|f]; [lia|]. unfold GetObject.
  rewrite (get_object_in_use f E file n p e X T), get_in_use_eq. fold s. rewrite R2, MS, R3. cbn [fst snd].
  unfold object_end. rewrite bseq_refl. unfold bind at 1.
  set (rs := fun r0 => restoring file (resolve f E file r0 [])).
  set (p3 := with_rd s3 p).
  destruct (filter_list_spec rs _ _ p3 FO) as [-> DF0]. unfold bind at 1. destruct (parms_list_spec rs _ _ p3 PO) as [-> DP0].
  unfold bind at 1. rewrite (choose_crypt_spec rs (psh p) v (x_enc e) fl pl c fl' pl' p3 SC eq_refl DF0 DP0).
  unfold bind at 1, read_stream, onrd. unfold bind at 1. cbn [prd with_rd p3]. rewrite R4. unfold lift. unfold bind at 1. rewrite DD.
  rewrite R by lia. exists s4. split; [reflexivity|]. destruct M4 as (W4 & _ & _ & ->). split; [assumption |]. rewrite Hl3, Hl, !app_nil_r. reflexivity.
Qed.
Lemma stream_object : forall E file p n e head hn hg g1 t d v g2 pre eol data eol' r fs fd fl pl c fl' pl' out,
  reads file p -> xget n (pxref p) = Some e -> x_type e = 1 -> 0 <= x_off e ->
  object_head head hn hg -> gap g1 -> obj_text t (ODict d) -> gap g2 -> no_eol pre -> ends_token (pre ++ eol) ->
  eol_before eol (data ++ eol' ++ lit "endstream" ++ r) -> ~ occurs (lit "endstream") data -> eol_after data eol' ->
  zdrop (x_off e) file = head ++ g1 ++ t ++ g2 ++ lit "stream" ++ pre ++ eol ++ data ++ eol' ++ lit "endstream" ++ r ->
  zlen (head ++ g1 ++ t ++ g2 ++ lit "stream" ++ pre ++ eol) + 9 <= bufsize ->
  (forall s, new_decryptor E (if x_enc e then sh_string (psh p) else CFNone) n (x_gen e) s = Ok (fs s)) ->
  map_strings fs (ODict d) = ODict v -> filters_of v fl -> parms_of v pl ->
  stream_crypt (psh p) v (x_enc e) fl pl c fl' pl' ->
  new_decryptor E c n (x_gen e) data = Ok fd -> decoded E fl' pl' (Some fd) out ->
  exists f0, forall fuel, (f0 <= fuel)%nat -> exists p',
    GetObject fuel E file n p = Ok ({| inum := n; igen := x_gen e; ival := ODict v; istream := out |}, p') /\
    log (prd p') = log (prd p).
Proof.
  intros E file p n e head hn hg g1 t d v g2 pre eol data eol' r fs fd fl pl c fl' pl' out W X T O H G1 OT G2 NE ET EB NO EA F Wd DS MS FO PO SC DD DC.
  destruct (stream_object_from E file v fl pl c fl' pl' fd out _ _ FO PO SC DC) as (f0 & R). exists f0. intros fuel L.
  destruct (R p n e head hn hg g1 t d g2 pre eol data eol' r fs fuel W X T O eq_refl eq_refl H G1 OT G2 NE ET EB NO EA F Wd DS MS DD L) as (s' & Q & _ & G).
  eexists. split; [exact Q | exact G].
Qed.
