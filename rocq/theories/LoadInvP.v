(** LoadInvP.v -- loading keeps the cross-reference table a map: every object
    number has at most one entry. *)
From Verif Require Import Base BaseP Msg Reader ReaderP Num Lexer Obj ReadObj Env Getters Crypt GetObj Regex Xref Security Load
  RelP GetObjP SpecRead FetchP LookP SecurityP CryptObjP SpecFetch SpecLook.
From Coq Require Import Strings.String.

Definition sound (file : bytes) (p : pst) : Prop := reads file p /\ NoDup (map fst (pxref p)).
Definition tidy {A} (file : bytes) (m : M A) : Prop := forall p a p', sound file p -> m p = Ok (a, p') -> sound file p'.

Section Tidy.
  Variable file : bytes.
  Lemma tidy_same : forall A (m : M A), safe file m -> (forall p a p', reads file p -> m p = Ok (a, p') -> pxref p' = pxref p) -> tidy file m.
  Proof. intros A m S X p a p' [W N] R. split; [eapply S; eassumption |]. rewrite (X _ _ _ W R). exact N. Qed.
  Lemma tidy_still : forall A (m : M A), still file m -> tidy file m.
  Proof. intros A m H. apply tidy_same; [apply safe_still; exact H |]. intros p a p' W R. apply (H _ _ _ W R). Qed.
  Lemma tidy_bind : forall A B (m : M A) (k : A -> M B), tidy file m -> (forall a, tidy file (k a)) -> tidy file (bind m k).
  Proof.
    intros A B m k Hm Hk p b p' W H. unfold bind in H. destruct (m p) as [[a p1]| |] eqn:X; try discriminate.
    eapply Hk; [| exact H]. eapply Hm; eassumption.
  Qed.
  Lemma tidy_ret : forall A (x : A), tidy file (ret x).
  Proof. intros A x. apply tidy_still, ret_still. Qed.
  Lemma tidy_pseek : forall off, tidy file (pseek file off).
  Proof. intros off. apply tidy_same; [apply safe_pseek |]. intros p a p' W H. unfold pseek in H. assert (p' = with_rd (seek file off (prd p)) p) by congruence. subst. reflexivity. Qed.
  Lemma tidy_onrd : forall A (f : rd -> A * rd), rel1 (keeps file) f -> tidy file (onrd f).
  Proof.
    intros A f Hf. apply tidy_same; [apply safe_onrd; exact Hf |]. intros p a p' W H. unfold onrd in H.
    destruct (f (prd p)) as [b s]. assert (p' = with_rd s p) by congruence. subst. reflexivity.
  Qed.
  Lemma tidy_onrdr : forall A (f : rd -> res (A * rd)), relr (keeps file) f -> tidy file (onrdr f).
  Proof.
    intros A f Hf. apply tidy_same; [apply safe_onrdr; exact Hf |]. intros p a p' W H. unfold onrdr in H.
    destruct (f (prd p)) as [[b s]| |]; try discriminate. assert (p' = with_rd s p) by congruence. subst. reflexivity.
  Qed.
  Lemma tidy_get_object : forall fuel E n, tidy file (get_object fuel E file n).
  Proof.
    intros fuel E n. apply tidy_same; [apply safe_get_object |]. intros p a p' W H. destruct (get_object_keeps _ _ _ _ _ _ _ W H) as [_ [X _ _]]. symmetry. exact X.
  Qed.
  Lemma tidy_put : forall n e, tidy file (put_xref n e).
  Proof.
    intros n e p a p' [W N] X. unfold put_xref in X. assert (p' = with_xref (xset n e (pxref p)) p) by congruence. subst. split; [exact W |].
    apply mset_nodup; [exact Zeqb_ok | exact N].
  Qed.
  Lemma tidy_merge_trailer : forall t, tidy file (merge_trailer t).
  Proof.
    intros t. apply tidy_same; [apply safe_merge_trailer |]. intros p a p' W X. unfold merge_trailer in X.
    assert (p' = with_trailer (mmerge bseq (ptrailer p) t) p) by congruence. subst. reflexivity.
  Qed.
  Lemma tidy_merge_xrefs : forall x, tidy file (merge_xrefs x).
  Proof.
    intros t p a p' [W N] X. unfold merge_xrefs in X. assert (p' = with_xref (mmerge Z.eqb (pxref p) t) p) by congruence. subst. split; [exact W |].
    apply mmerge_nodup; [exact Zeqb_ok | exact N].
  Qed.
  Lemma stream_entries_nodup : forall fuel j len start w0 w1 w2 data x x' d b, NoDup (map fst x) ->
    stream_entries fuel j len start w0 w1 w2 data x = Ok ((x', d), b) -> NoDup (map fst x').
  Proof.
    induction fuel as [| f IH]; intros j len start w0 w1 w2 data x x' d b N H; [discriminate |]. cbn [stream_entries] in H.
    destruct (j <? len); [| congruence]. unfold rbind in H.
    destruct (read_field w0 data) as [[[typ [|]] d1]| |]; try discriminate; [| congruence].
    destruct (read_field w1 d1) as [[[off [|]] d2]| |]; try discriminate; [| congruence].
    destruct (read_field w2 d2) as [[[gen [|]] d3]| |]; try discriminate; [| congruence].
    eapply IH; [| exact H]. apply mset_nodup; [exact Zeqb_ok | exact N].
  Qed.

  Section Rs.
    Variable rs : Z -> M iobj.
    Hypothesis H : forall n, still file (rs n).
    Lemma tidy_sections : forall k fuel i index w0 w1 w2 data, tidy file (stream_sections k fuel rs i index w0 w1 w2 data).
    Proof.
      intros k. induction k as [| k IH]; intros fuel i index w0 w1 w2 data; cbn [stream_sections]; [apply tidy_ret |].
      destruct (i <? _); [| apply tidy_ret]. apply tidy_bind; [apply tidy_still, a_int_still; exact H |]. intros [st ok]. destruct ok; [| apply tidy_ret].
      apply tidy_bind; [apply tidy_still, a_int_still; exact H |]. intros [len ok]. destruct ok; [| apply tidy_ret].
      intros p a p' [W N] X. destruct (stream_entries fuel 0 len st w0 w1 w2 data (pxref p)) as [[[x d] [|]]| |] eqn:Q; try discriminate.
      - eapply IH; [| exact X]. split; [exact W |]. eapply stream_entries_nodup; [exact N | exact Q].
      - assert (p' = with_xref x p) by congruence. subst. split; [exact W |]. eapply stream_entries_nodup; [exact N | exact Q].
    Qed.
    Lemma tidy_stream_entries : forall fuel xoff o t, tidy file (load_stream_entries fuel rs xoff o t).
    Proof.
      intros fuel xoff o t. unfold load_stream_entries.
      apply tidy_bind; [apply tidy_merge_trailer |]. intros _.
      apply tidy_bind; [apply tidy_still, d_array_still; exact H |]. intros [index ok].
      apply tidy_bind.
      { destruct ok; [apply tidy_ret |]. apply tidy_bind; [apply tidy_still, d_number_still; exact H |]. intros [size ok]. apply tidy_ret. }
      intros [ix |]; [| apply tidy_ret].
      apply tidy_bind; [apply tidy_still, d_array_still; exact H |]. intros [w ok1]. destruct ok1; [| apply tidy_ret].
      apply tidy_bind; [apply tidy_still, a_int_still; exact H |]. intros [w0 ok0]. destruct ok0; [| apply tidy_ret].
      apply tidy_bind; [apply tidy_still, a_int_still; exact H |]. intros [w1 ok1]. destruct ok1; [| apply tidy_ret].
      apply tidy_bind; [apply tidy_still, a_int_still; exact H |]. intros [w2 ok2]. destruct ok2; [| apply tidy_ret].
      apply tidy_bind; [apply tidy_sections |]. intros [|]; [apply tidy_put | apply tidy_ret].
    Qed.
  End Rs.

  Let KR := keeps_respects file.
  Lemma tidy_load_xref : forall fuel E offset seen, tidy file (load_xref fuel E file offset seen).
  Proof.
    intros fuel E. induction fuel as [| f IH]; intros offset seen; [intros p a p' W X; discriminate |]. cbn [load_xref].
    destruct (zmem offset seen); [apply tidy_ret |]. cbv zeta.
    apply tidy_bind; [apply tidy_pseek |]. intros _.
    apply tidy_bind; [apply tidy_onrd, (read_keyword_rel file); exact KR |]. intros kw.
    destruct (bseq kw (lit "xref")).
    - apply tidy_bind; [apply tidy_onrd, (read_xref_table_rel file); exact KR |]. intros x.
      apply tidy_bind; [apply tidy_onrd, (read_keyword_rel file); exact KR |]. intros _.
      apply tidy_bind; [apply tidy_onrdr, (ReadDictionary_rel file); exact KR |]. intros t.
      apply tidy_bind; [apply tidy_still, d_int_still, Resolve_still |]. intros [prev ok].
      apply tidy_bind; [destruct ok; [apply IH | apply tidy_ret] |]. intros _.
      apply tidy_bind; [apply tidy_merge_trailer |]. intros _. apply tidy_merge_xrefs.
    - apply tidy_bind; [apply tidy_pseek |]. intros _.
      apply tidy_bind; [apply tidy_onrd, (read_object_header_rel file); exact KR |]. intros [[n g] ok]. destruct ok; [| apply tidy_ret].
      apply tidy_bind; [apply tidy_put |]. intros _.
      intros p a p' W X. revert a p' X.
      assert (G : forall xoff, tidy file (bind (get_object f E file n) (fun o => match ival o with
        | ODict t => bind (d_int (Resolve f E file) t (lit "Prev")) (fun '(prev, ok) =>
            bind (if ok : bool then load_xref f E file prev (offset :: seen) else ret tt) (fun _ => load_stream_entries f (Resolve f E file) xoff o t))
        | _ => ret tt end))).
      { intros xoff. apply tidy_bind; [apply tidy_get_object |]. intros o. destruct (ival o); try apply tidy_ret.
        apply tidy_bind; [apply tidy_still, d_int_still, Resolve_still |]. intros [prev ok].
        apply tidy_bind; [destruct ok; [apply IH | apply tidy_ret] |]. intros _. apply tidy_stream_entries, Resolve_still. }
      intros a p' X. eapply (G (pos (prd p))); [exact W | exact X].
  Qed.
  Lemma tidy_load_all : forall fuel E offs, tidy file (load_all fuel E file offs).
  Proof.
    intros fuel E offs. induction offs as [| o offs IH]; cbn [load_all]; [apply tidy_ret |].
    apply tidy_bind; [apply tidy_load_xref |]. intros _. exact IH.
  Qed.
  Lemma tidy_find_loop : forall fuel E k offset objects, tidy file (find_objects_loop k fuel E file offset objects).
  Proof.
    intros fuel E k. induction k as [| k IH]; intros offset objects; cbn [find_objects_loop]; [apply tidy_ret |].
    destruct (rfind start_obj_regexp (zdrop offset file) 0) as [[i j] |]; [| apply tidy_ret].
    apply tidy_bind; [apply tidy_pseek |]. intros _.
    apply tidy_bind; [apply tidy_onrd, (read_object_header_rel file); exact KR |]. intros [[n g] b]. cbv zeta.
    apply tidy_bind; [apply tidy_onrdr, (ReadDictionary_rel file); exact KR |]. intros d.
    apply tidy_bind; [apply tidy_still, d_name_still, Resolve_still |]. intros [t ok].
    apply tidy_bind; [apply tidy_pseek |]. intros _. apply IH.
  Qed.
  Lemma tidy_find_objects : forall fuel E, tidy file (find_objects fuel E file).
  Proof. intros. unfold find_objects. apply tidy_bind; [apply tidy_pseek |]. intros _. apply tidy_find_loop. Qed.
  Lemma tidy_repair : forall l, tidy file (repair file l).
  Proof.
    intros l. induction l as [| [num object] l IH]; cbn [repair]; [apply tidy_ret |].
    apply tidy_bind; [| intros _; exact IH]. intros p a p' W X. unfold repair_one in X.
    destruct (xget num (pxref p)) as [e |]; [| eapply tidy_put; eassumption].
    refine (tidy_bind _ _ (pseek file (x_off e)) _ (tidy_pseek _) _ p a p' W X). intros _.
    apply tidy_bind; [apply tidy_onrd, (read_object_header_rel file); exact KR |]. intros [[n g] ok].
    destruct (ok || _); [apply tidy_put | apply tidy_ret].
  Qed.
  Lemma tidy_exempt : forall o, tidy file (exempt_encrypt o).
  Proof.
    intros o p a p' W H. unfold exempt_encrypt in H. destruct o; try (assert (p' = p) by congruence; subst; exact W).
    destruct (xget n (pxref p)) as [e |]; [| assert (p' = p) by congruence; subst; exact W].
    match type of H with Ok (tt, with_xref (xset n ?e' _) p) = _ => exact (tidy_put n e' p a p' W ltac:(destruct a; exact H)) end.
  Qed.
  Lemma tidy_password : forall fuel E pw, tidy file (set_password fuel E file pw).
  Proof. intros fuel E pw p a p' [W N] H. destruct (set_password_sparing _ _ _ _ _ _ _ W H) as (W' & X & _). split; [exact W' |]. rewrite X. exact N. Qed.
  Lemma tidy_load : forall fuel E ord pw, tidy file (load fuel E ord file pw).
  Proof.
    intros fuel E ord pw. unfold load. apply tidy_bind; [apply tidy_find_objects |]. intros objects.
    apply tidy_bind; [apply tidy_pseek |]. intros _. apply tidy_bind; [apply tidy_load_all |]. intros _. apply tidy_bind; [apply tidy_repair |]. intros _.
    intros p a p' W H. destruct (dget (lit "Encrypt") (ptrailer p)) as [o |]; [| assert (p' = p) by congruence; subst; exact W].
    exact (tidy_bind _ _ _ _ (tidy_exempt o) (fun _ => tidy_password fuel E pw) p a p' W H).
  Qed.
End Tidy.
