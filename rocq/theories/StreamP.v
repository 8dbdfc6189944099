(** StreamP.v -- ReadStream over the plain list of unread bytes. *)
From Verif Require Import Base BaseP Msg Reader ReaderP Lexer Stream SpecLex SpecObj SpecRead SpecStream.
From Coq Require Import Strings.String.

Definition marker : bytes := lit "endstream".

(** ** Plain versions *)
Fixpoint p_skip (t : bytes) : option bytes :=
  match t with
  | [] => None
  | b :: r =>
      if beq b x0a then Some r
      else if beq b x0d then
        match r with [] => None | c :: r' => if beq c x0a then Some r' else Some r end
      else p_skip r
  end.

Fixpoint p_loop (t acc : bytes) : bytes * bytes * list msg :=
  if bseq (firstn 9 t) marker then (trim_eol acc, skipn 9 t, [])
  else match t with
       | [] => (acc, [], [])
       | b :: t' => if (List.length t' <? 9)%nat then (acc ++ t, [], [UnclosedStream]) else p_loop t' (acc ++ [b])
       end.
Definition p_raw (t : bytes) : option bytes * bytes * list msg :=
  match p_skip t with
  | None => (None, [], [])
  | Some r => let '(d, r', ms) := p_loop r [] in (Some d, r', ms)
  end.

Lemma buffered_rb : forall file s b r e lg k, St file s (b :: r) e lg -> buffered k s -> 0 < k ->
  exists s', read_byte s = (Some b, s') /\ St file s' r e lg /\ last s' = Some b /\ Z.min (k - 1) (zlen r) <= buf s'.
Proof.
  intros file s b r e lg k S B K. destruct (rb_cons _ _ _ _ _ _ S) as (s' & R & S' & L). exists s'. split; auto. split; auto. split; auto.
  unfold read_byte in R. destruct S as (W & Hr & He & Hl). rewrite Hr in R. injection R as <-. cbn [buf].
  pose proof (zlen_nonneg _ r). unfold buffered in B. rewrite Hr, zlen_cons in B.
  unfold filled. rewrite Hr, zlen_cons. unfold bufsize in *. 
  destruct (buf s =? 0) eqn:E; [apply Z.eqb_eq in E|apply Z.eqb_neq in E]; lia.
Qed.

(** skip_eol_loop: [None] or the rest, with the window kept *)
Lemma skip_eol_plain : forall file t n s e lg, St file s t e lg -> (List.length t < n)%nat ->
  match p_skip t with
  | None => exists s', skip_eol_loop n s = (false, s') /\ St file s' [] e lg
  | Some r => exists s', skip_eol_loop n s = (true, s') /\ St file s' r e lg /\
      forall k, stream_head t k -> forall j, 0 <= j -> buffered (k + j) s -> Z.min j (zlen r) <= buf s'
  end.
Proof.
  intros file t. induction t as [|b t IH]; intros n s e lg S L; (destruct n as [|n]; [simpl in L; lia|]); cbn [p_skip skip_eol_loop].
  - exists s. rewrite (rb_nil _ _ _ _ S). auto.
  - destruct (rb_cons _ _ _ _ _ _ S) as (s' & R & S' & La). rewrite R. destruct (beq b x0a) eqn:E1.
    + exists s'. split; auto. split; auto. intros k (pre & eol & r & Ht & Hp & He & ->) j J B.
      apply beq_eq in E1. subst b. destruct (buffered_rb _ _ _ _ _ _ _ S B) as (s2 & R2 & S2 & _ & W).
      { pose proof (zlen_nonneg _ (pre ++ eol)). destruct pre as [|c pre].
        - inversion He; subst; simpl in Ht; try discriminate Ht; unfold zlen in *; cbn [app List.length]; lia.
        - rewrite <- app_comm_cons, zlen_cons. pose proof (zlen_nonneg _ (pre ++ eol)). lia. }
      assert (s2 = s') by congruence. subst s2. destruct pre as [|c pre].
      * inversion He; subst; simpl in Ht; try discriminate Ht. cbn [app] in W. unfold zlen in W at 1. cbn [List.length] in W. lia.
      * exfalso. injection Ht as <- Ht. destruct (Hp x0a); [left; auto|congruence].
    + apply beq_neq in E1. destruct (beq b x0d) eqn:E2.
      * apply beq_eq in E2. subst b. destruct t as [|c t].
        { exists s'. rewrite (rb_nil _ _ _ _ S'). auto. }
        destruct (rb_cons _ _ _ _ _ _ S') as (s2 & R2 & S2 & L2). rewrite R2.
        assert (HB : forall k, stream_head (x0d :: c :: t) k -> k = if beq c x0a then 2 else 1).
        { intros k (pre & eol & r & Ht & Hp & He & ->). destruct pre as [|b pre].
          - inversion He; subst; cbn [app] in Ht; try discriminate Ht.
            + injection Ht as -> ->. rewrite beq_refl. reflexivity.
            + injection Ht as -> ->. apply beq_neq in H. rewrite H. reflexivity.
          - exfalso. injection Ht as <- Ht. destruct (Hp x0d); [left; auto|congruence]. }
        destruct (beq c x0a) eqn:E3.
        -- exists s2. split; auto. split; auto. intros k Hk j J B. rewrite (HB k Hk) in B.
           destruct (buffered_rb _ _ _ _ _ _ _ S B) as (s3 & R3 & S3 & _ & W); [lia|]. assert (s3 = s') by congruence. subst s3.
           destruct (buffered_rb file s' c t e lg (2 + j - 1)) as (s4 & R4 & S4 & _ & W'); [auto| |lia|].
           { left. destruct S' as (_ & -> & _). lia. }
           assert (s4 = s2) by congruence. subst s4. lia.
        -- eexists. split; [reflexivity|]. split; [apply ur_St; auto|]. intros k Hk j J B. rewrite (HB k Hk) in B.
           destruct (buffered_rb _ _ _ _ _ _ _ S B) as (s3 & R3 & S3 & _ & W); [lia|]. assert (s3 = s') by congruence. subst s3.
           unfold unread_byte. rewrite L2. cbn [buf]. 
           assert (buf s' - 1 <= buf s2).
           { unfold read_byte in R2. destruct S' as (Wf & Hr & _). rewrite Hr in R2. injection R2 as <-. cbn [buf].
             destruct (buf s' =? 0) eqn:Z0; [apply Z.eqb_eq in Z0|lia]. unfold filled, bufsize. rewrite Hr, zlen_cons.
             pose proof (zlen_nonneg _ t). lia. }
           lia.
      * apply beq_neq in E2. specialize (IH n s' e lg S' ltac:(simpl in L; lia)). destruct (p_skip t) as [r|]; auto.
        destruct IH as (s2 & Q & S2 & W). exists s2. split; auto. split; auto. intros k (pre & eol & r' & Ht & Hp & He & ->) j J B.
        destruct pre as [|c pre].
        { exfalso. inversion He; subst; cbn [app] in Ht; congruence. }
        injection Ht as <- Ht. rewrite <- app_comm_cons, zlen_cons in B.
        pose proof (zlen_nonneg _ (pre ++ eol)).
        destruct (buffered_rb _ _ _ _ _ _ _ S B) as (s3 & R3 & S3 & _ & Wb); [lia|]. assert (s3 = s') by congruence. subst s3.
        apply (W (zlen (pre ++ eol))); auto.
        -- exists pre, eol, r'. split; auto. split; auto. intros x Hx. apply Hp. right; auto.
        -- left. destruct S' as (_ & -> & _). lia.
Qed.

Lemma stream_loop_plain : forall file r n endb acc s e lg, St file s r e lg -> (List.length r < n)%nat ->
  (List.length endb = 9%nat \/ (r = [] /\ List.length endb < 9)%nat) ->
  let '(d, r', ms) := p_loop (endb ++ r) acc in
  exists s', stream_loop n endb acc s = (d, s') /\ St file s' r' e (lg ++ ms).
Proof.
  intros file r. induction r as [|b r IH]; intros n endb acc s e lg S L H; (destruct n as [|n]; [simpl in L; lia|]).
  - rewrite app_nil_r. cbn [stream_loop].
    assert (Q : firstn 9 endb = endb) by (apply firstn_all2; lia).
    destruct endb as [|c endb]; [cbn [p_loop firstn]; exists s; rewrite app_nil_r; auto|].
    cbn [p_loop]. rewrite Q. fold marker. destruct (bseq (c :: endb) marker) eqn:M.
    + exists s. split; auto. rewrite app_nil_r. rewrite skipn_all2 by (cbn [List.length] in *; lia). auto.
    + rewrite (rb_nil _ _ _ _ S). assert (X : (List.length endb <? 9)%nat = true) by (apply Nat.ltb_lt; cbn [List.length] in H; lia).
      rewrite X. eexists. split; [reflexivity|]. apply le_St; auto.
  - destruct H as [H|[H _]]; [|discriminate]. cbn [stream_loop].
    assert (Q : firstn 9 (endb ++ b :: r) = endb) by (rewrite <- H, firstn_app, Nat.sub_diag, firstn_all, firstn_O, app_nil_r; reflexivity).
    destruct endb as [|c endb]; [discriminate|]. cbn [app p_loop]. rewrite app_comm_cons, Q. fold marker. destruct (bseq (c :: endb) marker) eqn:M.
    + exists s. split; auto. rewrite <- H, skipn_app, Nat.sub_diag, skipn_all, app_nil_r. auto.
    + destruct (rb_cons _ _ _ _ _ _ S) as (s' & R & S' & _). rewrite R.
      assert (X : (List.length (endb ++ b :: r) <? 9)%nat = false).
      { apply Nat.ltb_ge. rewrite app_length. cbn [List.length] in *. lia. }
      rewrite X. specialize (IH n (endb ++ [b]) (acc ++ [c]) s' e lg S' ltac:(cbn [List.length] in L; lia)).
      rewrite <- app_assoc in IH. cbn [app] in IH. apply IH. left. rewrite app_length. cbn [List.length] in *. lia.
Qed.

Lemma read_upto_whole : forall file s r e lg k, St file s r e lg -> (0 < k <= 4096)%nat -> Z.min (Z.of_nat k) (zlen r) <= buf s \/ buf s = 0 ->
  exists s', (match r with [] => read_upto k s = (None, s') | _ => read_upto k s = (Some (firstn k r), s') end) /\ St file s' (skipn k r) e lg.
Proof.
  intros file s r e lg k S K B. pose proof S as (W & Hr & He & Hl). unfold read_upto. rewrite Hr. destruct r as [|b r]; [exists s; split; auto; rewrite skipn_nil; auto|].
  assert (N : Nat.min k (Z.to_nat (if buf s =? 0 then filled s else buf s)) = Nat.min k (List.length (b :: r))).
  { destruct W as [_ _ Wb _]. rewrite Hr in Wb. unfold filled, bufsize. rewrite Hr. unfold zlen in *. destruct (buf s =? 0) eqn:E; [|apply Z.eqb_neq in E]; lia. }
  rewrite N. assert (F : firstn (Nat.min k (List.length (b :: r))) (b :: r) = firstn k (b :: r)).
  { destruct (Nat.le_ge_cases k (List.length (b :: r))); [rewrite Nat.min_l by auto; auto|]. rewrite Nat.min_r by auto. rewrite firstn_all, firstn_all2; auto. }
  assert (F' : skipn (Nat.min k (List.length (b :: r))) (b :: r) = skipn k (b :: r)).
  { destruct (Nat.le_ge_cases k (List.length (b :: r))); [rewrite Nat.min_l by auto; auto|]. rewrite Nat.min_r by auto. rewrite skipn_all, skipn_all2; auto. }
  rewrite F, F'. eexists. split; [reflexivity|]. set (k' := Nat.min k (List.length (b :: r))) in *.
  destruct W as [Wp Wr Wb Wl].
  assert (Zk : zlen (skipn k (b :: r)) = zlen (b :: r) - Z.of_nat k').
  { unfold zlen. rewrite skipn_length. unfold k'. lia. }
  split; [split|]; cbn [pos buf last rest log].
  - lia.
  - rewrite <- F', <- Hr, Wr. rewrite skipn_zdrop by lia. reflexivity.
  - rewrite Hr in Wb. rewrite Zk. destruct (buf s =? 0) eqn:E; [|apply Z.eqb_neq in E].
    + unfold filled, bufsize. rewrite Hr. unfold zlen, k' in *. lia.
    + unfold zlen, k' in *. lia.
  - intros x Hx. assert (K0 : (0 < k')%nat) by (unfold k'; cbn [List.length]; lia).
    split; [lia|]. 
    assert (exists g, firstn k (b :: r) = g ++ [x]).
    { destruct (@exists_last _ (firstn k (b :: r))) as (g & y & Fk). { destruct k; [lia|discriminate]. }
      rewrite Fk in *. rewrite map_app in Hx. cbn [map] in Hx. rewrite last_last in Hx. injection Hx as <-. eauto. }
    destruct H as (g & Hg).
    assert (Lg : List.length g = pred k').
    { assert (X : List.length (firstn k (b :: r)) = Datatypes.S (List.length g)) by (rewrite Hg, app_length; simpl; lia).
      rewrite firstn_length in X. unfold k'. lia. }
    replace (pos s + Z.of_nat k' - 1) with (pos s + Z.of_nat (List.length g)) by lia. rewrite <- skipn_zdrop by lia. rewrite <- Wr, Hr.
    rewrite <- (firstn_skipn k (b :: r)) at 1. rewrite Hg, <- app_assoc, skipn_app, skipn_all, Nat.sub_diag. reflexivity.
  - repeat split; auto. lia.
Qed.

(** ReadStream's raw part, when the nine bytes are not split *)
Lemma read_stream_raw_plain : forall file s, wf file s ->
  (forall k, stream_head (rest s) k -> buffered (k + 9) s) ->
  let '(d, r', ms) := p_raw (rest s) in
  exists s', read_stream_raw s = (d, s') /\ St file s' r' (pos s + zlen (rest s)) (log s ++ ms).
Proof.
  intros file s W B. pose proof (St_intro _ _ W) as S. unfold p_raw, read_stream_raw.
  pose proof (skip_eol_plain file (rest s) (Datatypes.S (List.length (rest s))) s _ _ S ltac:(lia)) as H.
  destruct (p_skip (rest s)) as [r|] eqn:P.
  - destruct H as (s1 & Q & S1 & Wd). rewrite Q.
    assert (HB : Z.min (Z.of_nat 9) (zlen r) <= buf s1 \/ buf s1 = 0).
    { assert (X : exists k, stream_head (rest s) k).
      { clear - P. revert r P. induction (rest s) as [|b t IH]; intros r P; [discriminate|]. cbn [p_skip] in P.
        destruct (beq b x0a) eqn:E1; [|destruct (beq b x0d) eqn:E2].
        - apply beq_eq in E1; subst. exists 1. exists [], [x0a], t. split; auto. split; [intros x []|]. split; [apply eb_lf|reflexivity].
        - apply beq_eq in E2; subst. destruct t as [|c t]; [discriminate|]. destruct (beq c x0a) eqn:E3.
          + apply beq_eq in E3; subst. exists 2. exists [], [x0d; x0a], t. split; auto. split; [intros x []|]. split; [apply eb_crlf|reflexivity].
          + apply beq_neq in E3. exists 1. exists [], [x0d], (c :: t). split; auto. split; [intros x []|]. split; [apply eb_cr; auto|reflexivity].
        - destruct (IH r P) as (k & pre & eol & r' & -> & Hp & He & ->). apply beq_neq in E1, E2.
          eexists. exists (b :: pre), eol, r'. split; [reflexivity|]. split; [|split; [exact He|reflexivity]].
          intros x [<-|Hx]; auto. }
      destruct X as (k & X). left. apply (Wd k X 9); [lia|]. apply B; auto. }
    destruct (read_upto_whole _ _ _ _ _ 9 S1 ltac:(lia) HB) as (s2 & R2 & S2).
    pose proof (stream_loop_plain file (skipn 9 r) (Datatypes.S (List.length (rest s2)))
      match fst (read_upto 9 s1) with Some b => b | None => [] end [] s2 _ _ S2 ltac:(destruct S2 as (_ & -> & _); lia)) as Lp.
    destruct r as [|b r].
    + rewrite R2 in *. cbn [fst] in Lp. specialize (Lp ltac:(right; cbn; split; auto; lia)). cbn [app skipn p_loop firstn] in *.
      change (bseq [] marker) with false in *. cbv iota in *. destruct Lp as (s3 & R3 & S3). cbn [p_loop firstn] in *. rewrite R3. exists s3. auto.
    + rewrite R2 in *. cbn [fst] in Lp. rewrite (firstn_skipn 9 (b :: r)) in Lp. 
      destruct (p_loop (b :: r) []) as [[d r'] ms]. destruct Lp as (s3 & R3 & S3).
      { rewrite firstn_length. destruct (Nat.le_gt_cases 9 (List.length (b :: r))); [left; lia|right]. split; [apply skipn_all2; lia|lia]. }
      rewrite R3. exists s3. auto.
  - destruct H as (s1 & Q & S1). rewrite Q. exists s1. rewrite app_nil_r. auto.
Qed.

(** ** The loops' bounds are never reached *)
Lemma skip_eol_fuel : forall file n m s, wf file s -> (List.length (rest s) < n)%nat -> (List.length (rest s) < m)%nat ->
  skip_eol_loop n s = skip_eol_loop m s.
Proof.
  intros file n. induction n as [|n IH]; intros m s W L L'; [lia|]. destruct m as [|m]; [lia|]. cbn [skip_eol_loop].
  pose proof (St_intro _ _ W) as S. destruct (rest s) as [|b t] eqn:E.
  - rewrite (rb_nil _ _ _ _ S). reflexivity.
  - destruct (rb_cons _ _ _ _ _ _ S) as (s' & R & (W' & Hr & _) & _). rewrite R. destruct (beq b x0a); auto. destruct (beq b x0d); auto.
    apply IH; auto; rewrite Hr; cbn [List.length] in *; lia.
Qed.
Lemma stream_loop_fuel : forall file n m endb acc s, wf file s -> (List.length (rest s) < n)%nat -> (List.length (rest s) < m)%nat ->
  stream_loop n endb acc s = stream_loop m endb acc s.
Proof.
  intros file n. induction n as [|n IH]; intros m endb acc s W L L'; [lia|]. destruct m as [|m]; [lia|]. cbn [stream_loop].
  destruct (bseq endb _); auto. destruct endb as [|c endb]; auto.
  pose proof (St_intro _ _ W) as S. destruct (rest s) as [|b t] eqn:E.
  - rewrite (rb_nil _ _ _ _ S). reflexivity.
  - destruct (rb_cons _ _ _ _ _ _ S) as (s' & R & (W' & Hr & _) & _). rewrite R.
    apply IH; auto; rewrite Hr; cbn [List.length] in *; lia.
Qed.
