(** ChunkP.v -- ReadDictionary called directly, where the position of the marker
    relative to the 4096 byte chunks of the buffer matters. *)
From Verif Require Import Base BaseP Msg Reader ReaderP Num Lexer Obj ReadObj Env Xref Plain LexerP PObjP ReadObjP SpecLex SpecLexP SpecObj SpecNumP
  SpecObjP SpecRead ReadP RelP GetObjP StreamObjP.
From Coq Require Import Strings.String.

(** Predicates kept by ReadByte and UnreadByte are kept by the token readers. *)
Section Bytewise.
  Variable P : rd -> Prop.
  Hypothesis Prb : forall s, P s -> P (snd (read_byte s)).
  Hypothesis Pub : forall s, P s -> P (unread_byte s).

  Ltac rb s H := let X := fresh "X" in pose proof (Prb s H) as X; destruct (read_byte s) as [[? |] ?]; cbn [snd] in X.
  Lemma comment_keeps : forall n s, P s -> P (consume_comment_loop n s).
  Proof.
    induction n as [| n IH]; intros s H; cbn [consume_comment_loop]; [assumption |].
    rb s H; [| assumption]. destruct (beq b x0a); [assumption |]. destruct (beq b x0d); [| apply IH; assumption].
    rb r X; [| assumption]. destruct (beq b0 x0a); [assumption | apply Pub; assumption].
  Qed.
  Lemma ws_keeps : forall n s, P s -> P (consume_ws_loop n s).
  Proof.
    induction n as [| n IH]; intros s H; cbn [consume_ws_loop]; [assumption |].
    rb s H; [| assumption]. destruct (beq b "%"%byte); [apply IH, comment_keeps; assumption |].
    destruct (is_ws b); [apply IH; assumption | apply Pub; assumption].
  Qed.
  Lemma consume_ws_keeps : forall s, P s -> P (consume_ws s).
  Proof. intros. apply ws_keeps. assumption. Qed.
  Lemma int_keeps : forall n v s, P s -> P (snd (read_int_loop n v s)).
  Proof.
    induction n as [| n IH]; intros v s H; cbn [read_int_loop]; [assumption |].
    rb s H; [| assumption]. destruct (is_digit b); [apply IH; assumption | apply Pub; assumption].
  Qed.
  Lemma read_int_keeps : forall s, P s -> P (snd (read_int s)).
  Proof.
    intros s H. unfold read_int, read_int64. apply consume_ws_keeps in H. rb (consume_ws s) H; [| apply Pub; assumption].
    destruct (is_digit b); [| apply Pub; assumption].
    pose proof (int_keeps (S (List.length (rest r))) (bv b - 48) r X) as Y. destruct (read_int_loop _ _ r). exact Y.
  Qed.
  Lemma kw_keeps : forall n acc s, P s -> P (snd (read_keyword_loop n acc s)).
  Proof.
    induction n as [| n IH]; intros v s H; cbn [read_keyword_loop]; [assumption |].
    rb s H; [| assumption]. destruct (is_ws b || is_delim b); [apply Pub; assumption | apply IH; assumption].
  Qed.
  Lemma read_keyword_keeps : forall s, P s -> P (snd (read_keyword s)).
  Proof. intros s H. unfold read_keyword. apply kw_keeps, consume_ws_keeps. assumption. Qed.
  Lemma read_object_header_keeps : forall s, P s -> P (snd (read_object_header s)).
  Proof.
    intros s H. unfold read_object_header. pose proof (read_int_keeps s H) as X. destruct (read_int s) as [[n ok] s1]. cbn [snd] in X.
    destruct ok; [| assumption]. pose proof (read_int_keeps s1 X) as Y. destruct (read_int s1) as [[g ok] s2]. cbn [snd] in Y.
    destruct ok; [| assumption]. pose proof (read_keyword_keeps s2 Y) as Z. destruct (read_keyword s2) as [k s3]. exact Z.
  Qed.
  Lemma table_entries_keeps : forall k i len start x s, P s -> P (snd (table_entries k i len start x s)).
  Proof.
    induction k as [| k IH]; intros i len start x s H; cbn [table_entries]; [assumption |]. destruct (i <? len); [| assumption].
    pose proof (read_int_keeps s H) as X. change read_int with read_int64 in X. destruct (read_int64 s) as [[off ok] s1]. cbn [snd] in X.
    destruct ok; [| assumption]. pose proof (read_int_keeps s1 X) as Y. destruct (read_int s1) as [[g ok] s2]. cbn [snd] in Y.
    destruct ok; [| assumption]. pose proof (read_keyword_keeps s2 Y) as Z. destruct (read_keyword s2) as [f s3]. apply IH. exact Z.
  Qed.
  Lemma table_sections_keeps : forall k x s, P s -> P (snd (table_sections k x s)).
  Proof.
    induction k as [| k IH]; intros x s H; cbn [table_sections]; [assumption |].
    pose proof (read_int_keeps s H) as X. destruct (read_int s) as [[off ok] s1]. cbn [snd] in X.
    destruct ok; [| assumption]. pose proof (read_int_keeps s1 X) as Y. destruct (read_int s1) as [[g ok] s2]. cbn [snd] in Y.
    destruct ok; [| assumption]. pose proof (table_entries_keeps (S (List.length (rest s2))) 0 g off x s2 Y) as Z.
    destruct (table_entries _ _ _ _ _ s2) as [x' s3]. apply IH. exact Z.
  Qed.
End Bytewise.

(** The buffer ends at a multiple of its size behind [off], or with the file. *)
Definition chunked (file : bytes) (off : Z) (s : rd) : Prop :=
  wf file s /\ ((pos s + buf s - off) mod bufsize = 0 \/ zlen file <= pos s + buf s).

Lemma chunked_rb : forall file off s, chunked file off s -> chunked file off (snd (read_byte s)).
Proof.
  intros file off s [W C]. pose proof (keeps_respects file) as KR. split; [apply (r_rb _ _ KR s s (conj eq_refl W)) |].
  pose proof (rest_zlen _ _ W) as L. pose proof (wf_buf _ _ W) as B.
  unfold read_byte. destruct (rest s) as [| b r] eqn:E; [exact C |]. cbn [snd pos buf].
  destruct (buf s =? 0) eqn:Z0; [apply Z.eqb_eq in Z0 | replace (pos s + 1 + (buf s - 1)) with (pos s + buf s) by lia; exact C].
  replace (pos s + 1 + (filled s - 1)) with (pos s + filled s) by lia. unfold filled. rewrite E.
  destruct (Z.le_gt_cases (zlen (b :: r)) bufsize) as [Q | Q].
  - right. rewrite Z.min_r by assumption. lia.
  - left. rewrite Z.min_l by lia. rewrite Z0, Z.add_0_r in C. destruct C as [C | C].
    + replace (pos s + bufsize - off) with (pos s - off + 1 * bufsize) by lia. rewrite Z.mod_add by (unfold bufsize; lia). exact C.
    + unfold bufsize in *. lia.
Qed.
Lemma chunked_ub : forall file off s, chunked file off s -> chunked file off (unread_byte s).
Proof.
  intros file off s [W C]. pose proof (keeps_respects file) as KR. split; [apply (r_ub _ _ KR s s (conj eq_refl W)) |].
  unfold unread_byte. destruct (last s); [| exact C]. cbn [pos buf]. replace (pos s - 1 + (buf s + 1)) with (pos s + buf s) by lia. exact C.
Qed.
Lemma chunked_seek : forall file off s, 0 <= off -> chunked file off (seek file off s).
Proof.
  intros file off s H. split; [apply sk_nonneg; assumption |]. left. unfold seek. destruct (off <? 0) eqn:Q; [apply Z.ltb_lt in Q; lia |].
  cbn [pos buf]. replace (off + 0 - off) with 0 by lia. reflexivity.
Qed.
Lemma chunked_buf : forall file off s a b r, chunked file off s -> rest s = a :: b :: r -> (pos s - off) mod bufsize <> bufsize - 1 -> buf s <> 1.
Proof.
  intros file off s a b r [W C] E H B. pose proof (rest_zlen _ _ W) as L. rewrite E, !zlen_cons in L. pose proof (zlen_nonneg _ r).
  rewrite B in C. destruct C as [C | C]; [| lia]. apply H.
  replace (pos s - off) with (pos s + 1 - off + -1) by lia. rewrite Zplus_mod, C. reflexivity.
Qed.

(** *** The dictionary itself *)
Lemma P0_dict_inv : forall l d r ms, P_object no_decryptor ("<"%byte :: "<"%byte :: l) = Ok ((ODict d, ENone), (r, ms)) -> P_dict no_decryptor [] l = Ok (d, (r, ms)).
Proof.
  intros l d r ms H. change (P_object no_decryptor) with P0 in H. rewrite P0_open_dict in H. unfold pthen in H.
  destruct (P_dict no_decryptor [] l) as [[a [r' ms']] | |]; try discriminate. cbn [app] in H.
  injection H as H1 H2 H3. subst. reflexivity.
Qed.
Lemma obj_text_dict : forall t d, obj_text t (ODict d) -> exists u, t = "<"%byte :: "<"%byte :: u.
Proof. intros t d H. inversion H; subst; eauto. Qed.
Lemma read_dictionary_text : forall file s g t d r, wf file s -> gap g -> obj_text t (ODict d) -> rest s = g ++ t ++ r ->
  buf (consume_ws s) <> 1 -> exists s', ReadDictionary file no_decryptor s = Ok (d, s') /\ moved file s s' r [].
Proof.
  intros file s g t d r W G T E B. destruct (obj_text_dict _ _ T) as (u & ->).
  assert (PW : p_ws (rest s) = "<"%byte :: "<"%byte :: u ++ r) by (rewrite E, gap_ws_app by assumption; reflexivity).
  pose proof (obj_text_reads _ _ r T I) as R. change P0 with (P_object no_decryptor) in R.
  change (("<"%byte :: "<"%byte :: u) ++ r) with ("<"%byte :: "<"%byte :: u ++ r) in R. apply P0_dict_inv in R.
  destruct (ReadDictionary_cases file no_decryptor s W no_decent) as [(r' & PR & _ & S) | ([N | N] & _)]; [| exfalso; eapply N; eassumption | contradiction].
  assert (r' = u ++ r) by congruence. subst r'. rewrite R in S. destruct S as (s' & Q & S). exists s'. split; [assumption |].
  destruct S as (A1 & A2 & A3 & A4). split; [assumption |]. split; [assumption |]. split; [| assumption].
  rewrite E. rewrite E in A3. lia.
Qed.
