(** CryptObjP.v -- GetObject on objects without a stream; Load keeps the reader
    a reader of the file and exempts the encryption dictionary. *)
From Verif Require Import Base BaseP Msg Reader ReaderP Plain Num NumP Lexer LexerP Obj ReadObj ReadObjP PObjP Bits Env Getters Crypt Stream GetObj Regex Xref Security Load
  RelP GetObjP SpecLex SpecLexP SpecObj SpecObjP SpecRead ReadP SpecFetch FetchP SpecStream StreamP StreamObjP SpecLook LookP SpecCrypt CryptP SpecSecurity SecurityP.
From Coq Require Import Strings.String.

Lemma plain_object : forall E file p n e head hn hg g1 t o g2 r fs,
  reads file p -> xget n (pxref p) = Some e -> x_type e = 1 -> 0 <= x_off e ->
  object_head head hn hg -> gap g1 -> obj_text t o -> gap g2 -> ends_token (g1 ++ t ++ g2 ++ lit "endobj" ++ r) -> may_follow o (g2 ++ lit "endobj" ++ r) -> ends_token r ->
  zdrop (x_off e) file = head ++ g1 ++ t ++ g2 ++ lit "endobj" ++ r ->
  (forall s, new_decryptor E (if x_enc e then sh_string (psh p) else CFNone) n (x_gen e) s = Ok (fs s)) ->
  forall fuel, exists p',
    GetObject (S fuel) E file n p = Ok ({| inum := n; igen := x_gen e; ival := map_strings fs o; istream := None |}, p') /\
    log (prd p') = log (prd p).
Proof.
  intros E file p n e head hn hg g1 t o g2 r fs W X T O H G1 OT G2 ET MF ER F DS fuel.
  set (s := seek file (x_off e) (prd p)).
  destruct (sk_nonneg file (x_off e) (prd p) O) as (Ws & Hr & Hp & Hl). fold s in Ws, Hr, Hp, Hl. rewrite F in Hr, Hp.
  pose proof (St_intro _ _ Ws) as S0. rewrite Hr in S0.
  destruct (read_object_header_text _ _ _ _ _ _ _ _ H ET S0) as (s1 & R1 & S1).
  destruct S1 as (W1 & Hr1 & He1 & Hl1).
  destruct (read_object_text file _ fs s1 g1 t o (g2 ++ lit "endobj" ++ r) W1 DS G1 OT MF Hr1) as (s2 & R2 & M2).
  destruct M2 as (W2 & Hr2 & Hp2 & Hl2).
  destruct (read_keyword_sim file s2 _ _ _ (St_intro _ _ W2)) as (s3 & R3 & S3). rewrite Hr2 in R3, S3.
  assert (P3 : p_keyword (g2 ++ lit "endobj" ++ r) = (lit "endobj", r)).
  { apply (p_keyword_text g2 (lit "ndobj") r "e"); auto. regular. }
  rewrite P3 in *. cbn [fst snd] in *.
  unfold GetObject. rewrite (get_object_in_use fuel E file n p e X T), get_in_use_eq. fold s. rewrite R1. cbn [snd]. rewrite R2, R3. cbn [fst snd].
  unfold object_end. change (bseq (lit "endobj") (lit "stream")) with false. cbv iota.
  eexists. split; [reflexivity |]. cbn [prd with_rd]. destruct S3 as (_ & _ & _ & Hl3). rewrite app_nil_r in *. congruence.
Qed.

(** ** What the security handler's initialisation leaves alone *)
Definition aside (file : bytes) (p q : pst) : Prop := reads file q /\ pxref q = pxref p /\ ptrailer q = ptrailer p.
Definition sparing {A} (file : bytes) (m : M A) : Prop := forall p a p', reads file p -> m p = Ok (a, p') -> aside file p p'.
Lemma sparing_bind : forall A B file (m : M A) (k : A -> M B), still file m -> (forall a, sparing file (k a)) -> sparing file (bind m k).
Proof.
  intros A B file m k Hm Hk p e p' W H. unfold bind in H. destruct (m p) as [[a p1]| |] eqn:X; try discriminate.
  destruct (Hm _ _ _ W X) as (W1 & _ & _ & X1 & T1 & _). destruct (Hk a _ _ _ W1 H) as (W2 & X2 & T2).
  split; [assumption |]. split; congruence.
Qed.
Lemma sparing_ret : forall A file (x : A), sparing file (ret x).
Proof. intros A file x p e p' W H. unfold ret in H. assert (p' = p) by congruence. subst. split; auto. Qed.
Section Init.
  Variables (E : env) (file : bytes) (rs : Z -> M iobj).
  Hypothesis H : forall n, still file (rs n).
  Lemma init_sparing : forall pw t, sparing file (init_security E rs pw t).
  Proof.
    intros pw t. unfold init_security.
    apply sparing_bind; [apply d_dict_still; exact H |]. intros [enc ok]. destruct ok; cbn [negb]; [| apply sparing_ret].
    apply sparing_bind; [apply d_name_still; exact H |]. intros [flt ok]. destruct (negb _); [apply sparing_ret |].
    apply sparing_bind; [apply d_int_still; exact H |]. intros [v ok2]. destruct (negb _); [apply sparing_ret |].
    apply sparing_bind; [apply d_int_still; exact H |]. intros [r ok3]. destruct (_ || _); [apply sparing_ret |].
    apply sparing_bind; [destruct (v =? 1); [apply ret_still | apply d_int_still; exact H] |]. intros l. cbv zeta.
    apply sparing_bind; [apply d_string_still; exact H |]. intros [o ok4]. destruct (negb ok4); [apply sparing_ret |].
    apply sparing_bind; [apply d_string_still; exact H |]. intros [u ok5]. destruct (negb ok5); [apply sparing_ret |].
    apply sparing_bind; [apply d_int_still; exact H |]. intros [p0 ok6]. destruct (negb ok6); [apply sparing_ret |].
    apply sparing_bind; [apply d_bool_still; exact H |]. intros [em ok7].
    apply sparing_bind; [apply d_array_still; exact H |]. intros [ids ok8]. destruct (negb ok8); [apply sparing_ret |].
    apply sparing_bind; [apply a_string_still; exact H |]. intros [id ok9]. destruct (negb ok9); [apply sparing_ret |].
    apply sparing_bind; [apply lift_still |]. intros key.
    apply sparing_bind; [apply lift_still |]. intros good. destruct (negb good); [apply sparing_ret |].
    apply sparing_bind.
    - destruct (r =? 4); [| apply ret_still]. apply bind_still; [apply d_dict_still; exact H |]. intros [cf okc].
      apply bind_still; [apply load_cf_still; exact H |]. intros fs.
      apply bind_still; [apply override_still; exact H |]. intros c1. apply bind_still; [apply override_still; exact H |]. intros c2.
      apply bind_still; [apply override_still; exact H |]. intros c3. apply ret_still.
    - intros h p e p' W X. assert (p' = with_sh h p) by congruence. subst p'. split; [exact W |]. split; reflexivity.
  Qed.
End Init.
Lemma set_password_sparing : forall fuel E file pw, sparing file (set_password fuel E file pw).
Proof.
  intros fuel E file pw p a p' W H. eapply (init_sparing E file (Resolve fuel E file)); [| exact W | exact H].
  intros n q b q' Wq R. eapply Resolve_stays; eassumption.
Qed.

(** ** The reader stays a reader of the file *)
Definition safe {A} (file : bytes) (m : M A) : Prop := forall p a p', reads file p -> m p = Ok (a, p') -> reads file p'.
Section Safe.
  Variable file : bytes.
  Lemma safe_still : forall A (m : M A), still file m -> safe file m.
  Proof. intros A m H p a p' W R. apply (H _ _ _ W R). Qed.
  Lemma safe_bind : forall A B (m : M A) (k : A -> M B), safe file m -> (forall a, safe file (k a)) -> safe file (bind m k).
  Proof.
    intros A B m k Hm Hk p b p' W H. unfold bind in H. destruct (m p) as [[a p1]| |] eqn:X; try discriminate.
    eapply Hk; [| exact H]. eapply Hm; eassumption.
  Qed.
  Lemma safe_ret : forall A (x : A), safe file (ret x).
  Proof. intros A x p a p' W H. unfold ret in H. assert (p' = p) by congruence. subst. assumption. Qed.
  Lemma safe_pseek : forall off, safe file (pseek file off).
  Proof.
    intros off p a p' W H. unfold pseek in H. assert (p' = with_rd (seek file off (prd p)) p) by congruence. subst.
    apply (keeps_seek file off (prd p) (prd p)). split; [reflexivity | exact W].
  Qed.
  Lemma safe_onrd : forall A (f : rd -> A * rd), rel1 (keeps file) f -> safe file (onrd f).
  Proof.
    intros A f Hf p a p' W H. unfold onrd in H. destruct (Hf (prd p) (prd p)) as [_ K]; [split; [reflexivity | exact W] |].
    destruct (f (prd p)) as [b s]. assert (p' = with_rd s p) by congruence. subst. exact (proj2 K).
  Qed.
  Lemma safe_onrdr : forall A (f : rd -> res (A * rd)), relr (keeps file) f -> safe file (onrdr f).
  Proof.
    intros A f Hf p a p' W H. unfold onrdr in H. specialize (Hf (prd p) (prd p)).
    destruct (f (prd p)) as [[b s]| |]; try discriminate. destruct Hf as [_ K]; [split; [reflexivity | exact W] |].
    assert (p' = with_rd s p) by congruence. subst. exact (proj2 K).
  Qed.
  Lemma safe_get_object : forall fuel E n, safe file (get_object fuel E file n).
  Proof. intros fuel E n p a p' W H. eapply get_object_keeps; eassumption. Qed.

  Lemma table_entries_rel : forall R, respects file R -> forall k i len start x, rel1 R (table_entries k i len start x).
  Proof.
    intros R HR k. induction k as [| k IH]; intros i len start x s t H; cbn [table_entries]; [split; auto |].
    destruct (i <? len); [| split; auto].
    pose proof (read_int64_rel file R HR s t H) as [A B]. destruct (read_int64 s) as [[off ok] s1], (read_int64 t) as [[off' ok'] t1].
    cbn [fst snd] in A, B. assert (off' = off /\ ok' = ok) as [-> ->] by (split; congruence). destruct ok; [| split; auto].
    pose proof (read_int_rel file R HR s1 t1 B) as [A1 B1]. destruct (read_int s1) as [[g ok] s2], (read_int t1) as [[g' ok'] t2].
    cbn [fst snd] in A1, B1. assert (g' = g /\ ok' = ok) as [-> ->] by (split; congruence). destruct ok; [| split; auto].
    pose proof (read_keyword_rel file R HR s2 t2 B1) as [A2 B2]. destruct (read_keyword s2) as [kw s3], (read_keyword t2) as [kw' t3].
    cbn [fst snd] in A2, B2. subst kw'. apply IH. exact B2.
  Qed.
  Lemma table_sections_rel : forall R, respects file R -> forall k x, rel1 R (table_sections k x).
  Proof.
    intros R HR k. induction k as [| k IH]; intros x s t H; cbn [table_sections]; [split; auto |].
    pose proof (read_int_rel file R HR s t H) as [A B]. destruct (read_int s) as [[off ok] s1], (read_int t) as [[off' ok'] t1].
    cbn [fst snd] in A, B. assert (off' = off /\ ok' = ok) as [-> ->] by (split; congruence). destruct ok; [| split; auto].
    pose proof (read_int_rel file R HR s1 t1 B) as [A1 B1]. destruct (read_int s1) as [[g ok] s2], (read_int t1) as [[g' ok'] t2].
    cbn [fst snd] in A1, B1. assert (g' = g /\ ok' = ok) as [-> ->] by (split; congruence). destruct ok; [| split; auto].
    rewrite (r_len file R HR s2 t2 B1).
    pose proof (table_entries_rel R HR (S (List.length (rest t2))) 0 g off x s2 t2 B1) as [A2 B2].
    destruct (table_entries _ 0 g off x s2) as [y s3], (table_entries _ 0 g off x t2) as [y' t3]. cbn [fst snd] in A2, B2. subst y'.
    apply IH. exact B2.
  Qed.
  Lemma read_xref_table_rel : forall R, respects file R -> rel1 R read_xref_table.
  Proof. intros R HR s t H. unfold read_xref_table. rewrite (r_len file R HR s t H). apply table_sections_rel; assumption. Qed.

  Section Rs.
    Variable rs : Z -> M iobj.
    Hypothesis H : forall n, still file (rs n).
    Lemma d_number_still : forall d k, still file (d_number rs d k).
    Proof. intros. unfold d_number. apply bind_still; [apply d_object_still; exact H |]. intros. apply ret_still. Qed.
    Lemma a_int_still : forall d k, still file (a_int rs d k).
    Proof. intros. unfold a_int. apply bind_still; [apply a_object_still; exact H |]. intros. apply ret_still. Qed.
    Lemma safe_sections : forall k fuel i index w0 w1 w2 data, safe file (stream_sections k fuel rs i index w0 w1 w2 data).
    Proof.
      intros k. induction k as [| k IH]; intros fuel i index w0 w1 w2 data; cbn [stream_sections]; [apply safe_ret |].
      destruct (i <? _); [| apply safe_ret]. apply safe_bind; [apply safe_still, a_int_still |]. intros [st ok]. destruct ok; [| apply safe_ret].
      apply safe_bind; [apply safe_still, a_int_still |]. intros [len ok]. destruct ok; [| apply safe_ret].
      intros p a p' W X. destruct (stream_entries fuel 0 len st w0 w1 w2 data (pxref p)) as [[[x d] [|]]| |]; try discriminate.
      - eapply IH; [| exact X]. exact W.
      - assert (p' = with_xref x p) by congruence. subst. exact W.
    Qed.
    Lemma safe_put : forall n e, safe file (put_xref n e).
    Proof. intros n e p a p' W X. unfold put_xref in X. assert (p' = with_xref (xset n e (pxref p)) p) by congruence. subst. exact W. Qed.
    Lemma safe_merge_trailer : forall t, safe file (merge_trailer t).
    Proof. intros t p a p' W X. unfold merge_trailer in X. assert (p' = with_trailer (mmerge bseq (ptrailer p) t) p) by congruence. subst. exact W. Qed.
    Lemma safe_merge_xrefs : forall x, safe file (merge_xrefs x).
    Proof. intros t p a p' W X. unfold merge_xrefs in X. assert (p' = with_xref (mmerge Z.eqb (pxref p) t) p) by congruence. subst. exact W. Qed.
    Lemma safe_stream_entries : forall fuel xoff o t, safe file (load_stream_entries fuel rs xoff o t).
    Proof.
      intros fuel xoff o t. unfold load_stream_entries.
      apply safe_bind; [apply safe_merge_trailer |]. intros _.
      apply safe_bind; [apply safe_still, d_array_still; exact H |]. intros [index ok].
      apply safe_bind.
      { destruct ok; [apply safe_ret |]. apply safe_bind; [apply safe_still, d_number_still |]. intros [size ok]. apply safe_ret. }
      intros [ix |]; [| apply safe_ret].
      apply safe_bind; [apply safe_still, d_array_still; exact H |]. intros [w ok1]. destruct ok1; [| apply safe_ret].
      apply safe_bind; [apply safe_still, a_int_still |]. intros [w0 ok0]. destruct ok0; [| apply safe_ret].
      apply safe_bind; [apply safe_still, a_int_still |]. intros [w1 ok1]. destruct ok1; [| apply safe_ret].
      apply safe_bind; [apply safe_still, a_int_still |]. intros [w2 ok2]. destruct ok2; [| apply safe_ret].
      apply safe_bind; [apply safe_sections |]. intros [|]; [apply safe_put | apply safe_ret].
    Qed.
  End Rs.
  Lemma Resolve_still : forall fuel E n, still file (Resolve fuel E file n).
  Proof. intros fuel E n q b q' Wq R. eapply Resolve_stays; eassumption. Qed.

  Let KR := keeps_respects file.
  Lemma safe_load_xref : forall fuel E offset seen, safe file (load_xref fuel E file offset seen).
  Proof.
    intros fuel E. induction fuel as [| f IH]; intros offset seen; [intros p a p' W X; discriminate |]. cbn [load_xref].
    destruct (zmem offset seen); [apply safe_ret |]. cbv zeta.
    apply safe_bind; [apply safe_pseek |]. intros _.
    apply safe_bind; [apply safe_onrd, (read_keyword_rel file); exact KR |]. intros kw.
    destruct (bseq kw (lit "xref")).
    - apply safe_bind; [apply safe_onrd, read_xref_table_rel; exact KR |]. intros x.
      apply safe_bind; [apply safe_onrd, (read_keyword_rel file); exact KR |]. intros _.
      apply safe_bind; [apply safe_onrdr, (ReadDictionary_rel file); exact KR |]. intros t.
      apply safe_bind; [apply safe_still, d_int_still, Resolve_still |]. intros [prev ok].
      apply safe_bind; [destruct ok; [apply IH | apply safe_ret] |]. intros _.
      apply safe_bind; [apply safe_merge_trailer |]. intros _. apply safe_merge_xrefs.
    - apply safe_bind; [apply safe_pseek |]. intros _.
      apply safe_bind; [apply safe_onrd, (read_object_header_rel file); exact KR |]. intros [[n g] ok]. destruct ok; [| apply safe_ret].
      apply safe_bind; [apply safe_put |]. intros _.
      intros p a p' W X. revert a p' X. 
      assert (G : forall xoff, safe file (bind (get_object f E file n) (fun o => match ival o with
        | ODict t => bind (d_int (Resolve f E file) t (lit "Prev")) (fun '(prev, ok) =>
            bind (if ok : bool then load_xref f E file prev (offset :: seen) else ret tt) (fun _ => load_stream_entries f (Resolve f E file) xoff o t))
        | _ => ret tt end))).
      { intros xoff. apply safe_bind; [apply safe_get_object |]. intros o. destruct (ival o); try apply safe_ret.
        apply safe_bind; [apply safe_still, d_int_still, Resolve_still |]. intros [prev ok].
        apply safe_bind; [destruct ok; [apply IH | apply safe_ret] |]. intros _. apply safe_stream_entries, Resolve_still. }
      intros a p' X. eapply (G (pos (prd p))); [exact W | exact X].
  Qed.
  Lemma safe_load_all : forall fuel E offs, safe file (load_all fuel E file offs).
  Proof.
    intros fuel E offs. induction offs as [| o offs IH]; cbn [load_all]; [apply safe_ret |].
    apply safe_bind; [apply safe_load_xref |]. intros _. exact IH.
  Qed.
  Lemma safe_find_loop : forall fuel E k offset objects, safe file (find_objects_loop k fuel E file offset objects).
  Proof.
    intros fuel E k. induction k as [| k IH]; intros offset objects; cbn [find_objects_loop]; [apply safe_ret |].
    destruct (rfind start_obj_regexp (zdrop offset file) 0) as [[i j] |]; [| apply safe_ret].
    apply safe_bind; [apply safe_pseek |]. intros _.
    apply safe_bind; [apply safe_onrd, (read_object_header_rel file); exact KR |]. intros [[n g] b]. cbv zeta.
    apply safe_bind; [apply safe_onrdr, (ReadDictionary_rel file); exact KR |]. intros d.
    apply safe_bind; [apply safe_still, d_name_still, Resolve_still |]. intros [t ok].
    apply safe_bind; [apply safe_pseek |]. intros _. apply IH.
  Qed.
  Lemma safe_find_objects : forall fuel E, safe file (find_objects fuel E file).
  Proof. intros. unfold find_objects. apply safe_bind; [apply safe_pseek |]. intros _. apply safe_find_loop. Qed.
  Lemma safe_repair : forall l, safe file (repair file l).
  Proof.
    intros l. induction l as [| [num object] l IH]; cbn [repair]; [apply safe_ret |].
    apply safe_bind; [| intros _; exact IH]. intros p a p' W X. unfold repair_one in X.
    destruct (xget num (pxref p)) as [e |]; [| eapply safe_put; eassumption].
    refine (safe_bind _ _ (pseek file (x_off e)) _ (safe_pseek _) _ p a p' W X). intros _.
    apply safe_bind; [apply safe_onrd, (read_object_header_rel file); exact KR |]. intros [[n g] ok].
    destruct (ok || _); [apply safe_put | apply safe_ret].
  Qed.
End Safe.

Lemma xget_xset : forall n e x, xget n (xset n e x) = Some e.
Proof.
  intros n e x. unfold xget, xset. induction x as [| [k v] x IH]; cbn [mset mget]; [rewrite Z.eqb_refl; reflexivity |].
  destruct (n =? k) eqn:Q; cbn [mget]; rewrite ?Q, ?Z.eqb_refl; auto.
Qed.
(** the encryption dictionary *)
Lemma load_exempts : forall fuel E ord file pw p r p' n g e, reads file p -> load fuel E ord file pw p = Ok (r, p') ->
  entry (ptrailer p') (lit "Encrypt") = Some (ORef n g) -> xget n (pxref p') = Some e -> x_enc e = false.
Proof.
  intros fuel E ord file pw p r p' n g e W H T X. unfold load, bind in H.
  destruct (find_objects fuel E file p) as [[objects p1]| |] eqn:F1; try discriminate.
  assert (W1 : reads file p1) by (eapply safe_find_objects; eassumption).
  destruct (pseek file (zlen file) p1) as [[u p2]| |] eqn:F2; try discriminate.
  assert (W2 : reads file p2) by (eapply safe_pseek; [exact W1 | exact F2]).
  destruct (load_all fuel E file _ p2) as [[u3 p3]| |] eqn:F3; try discriminate.
  assert (W3 : reads file p3) by (eapply safe_load_all; eassumption).
  destruct (repair file (ord objects) p3) as [[u4 p4]| |] eqn:F4; try discriminate.
  assert (W4 : reads file p4) by (eapply safe_repair; eassumption).
  rewrite <- dget_entry in T.
  destruct (dget (lit "Encrypt") (ptrailer p4)) as [enc |] eqn:D4.
  2: { assert (p' = p4) by congruence. subst. congruence. }
  destruct (exempt_encrypt enc p4) as [[u5 p5]| |] eqn:F5; try discriminate.
  assert (P5 : reads file p5 /\ ptrailer p5 = ptrailer p4 /\ forall m g' e', enc = ORef m g' -> xget m (pxref p5) = Some e' -> x_enc e' = false).
  { unfold exempt_encrypt in F5. destruct enc; try (assert (p5 = p4) by congruence; subst; split; [assumption |]; split; [reflexivity |]; congruence).
    destruct (xget n0 (pxref p4)) as [e0 |] eqn:X0.
    - match type of F5 with Ok (tt, ?q) = _ => assert (p5 = q) by congruence end. subst p5. split; [exact W4 |]. split; [reflexivity |].
      intros m g' e' Q. injection Q as <- <-. cbn [with_xref pxref]. rewrite xget_xset. intros Q. injection Q as <-. reflexivity.
    - assert (p5 = p4) by congruence. subst. split; [assumption |]. split; [reflexivity |]. intros m g' e' Q. injection Q as <- <-. congruence. }
  destruct P5 as (W5 & T5 & X5). destruct (set_password_sparing _ _ _ _ _ _ _ W5 H) as (_ & Xp & Tp).
  rewrite Tp, T5, D4 in T. injection T as ->. rewrite Xp in X. eapply X5; [reflexivity | exact X].
Qed.
