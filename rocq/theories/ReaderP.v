(** ReaderP.v -- the invariant of the buffered reader, and its operations seen
    as operations on the list of unread bytes. *)
From Verif Require Import Base BaseP Msg Reader.

(** The reader is consistent with the file it reads. *)
Record wf (file : bytes) (s : rd) : Prop := {
  wf_pos : 0 <= pos s;
  wf_rest : rest s = zdrop (pos s) file;
  wf_buf : 0 <= buf s <= zlen (rest s);
  wf_last : forall b, last s = Some b ->
            0 < pos s /\ zdrop (pos s - 1) file = b :: rest s
}.

(** Consistent, with unread bytes [r], the end of the file at [e] and log [lg]. *)
Definition St (file : bytes) (s : rd) (r : bytes) (e : Z) (lg : list msg) : Prop :=
  wf file s /\ rest s = r /\ pos s + zlen r = e /\ log s = lg.

Lemma St_intro : forall file s, wf file s -> St file s (rest s) (pos s + zlen (rest s)) (log s).
Proof. intros file s H; split; [exact H|]. repeat split; auto. Qed.

Lemma open_wf : forall file, wf file (open_rd file).
Proof.
  intros file. split; simpl.
  - lia.
  - rewrite zdrop_skipn by lia. reflexivity.
  - pose proof (zlen_nonneg _ file). lia.
  - discriminate.
Qed.

Lemma zdrop_tail : forall (file : bytes) p b r, 0 <= p -> b :: r = zdrop p file -> r = zdrop (p + 1) file.
Proof.
  intros file p b r Hp H. rewrite <- zdrop_zdrop by lia. rewrite <- H.
  rewrite zdrop_skipn by lia. reflexivity.
Qed.

Lemma rb_nil : forall file s e lg, St file s [] e lg -> read_byte s = (None, s).
Proof. intros file s e lg (_ & H & _). unfold read_byte. rewrite H. reflexivity. Qed.

Lemma rb_cons : forall file s b r e lg, St file s (b :: r) e lg ->
  exists s', read_byte s = (Some b, s') /\ St file s' r e lg /\ last s' = Some b.
Proof.
  intros file s b r e lg ([Hp Hr Hb Hl] & H & He & Hg). unfold read_byte. rewrite H.
  eexists; split; [reflexivity|]. rewrite zlen_cons in He. rewrite H in *. rewrite zlen_cons in Hb.
  repeat split; simpl; auto; try lia.
  - eapply zdrop_tail; eauto.
  - unfold filled, bufsize. rewrite H, zlen_cons.
    pose proof (zlen_nonneg _ r). destruct (buf s =? 0) eqn:E; [|apply Z.eqb_neq in E]; lia.
  - unfold filled, bufsize. rewrite H, zlen_cons.
    pose proof (zlen_nonneg _ r). destruct (buf s =? 0) eqn:E; [|apply Z.eqb_neq in E]; lia.
  - injection H0 as <-. replace (pos s + 1 - 1) with (pos s) by lia. auto.
Qed.

Lemma ur_St : forall file s b r e lg, St file s r e lg -> last s = Some b ->
  St file (unread_byte s) (b :: r) e lg.
Proof.
  intros file s b r e lg ([Hp Hr Hb Hl] & H & He & Hg) L. unfold unread_byte. rewrite L.
  destruct (Hl _ L) as [H1 H2]. rewrite H in *.
  repeat split; simpl; auto; try lia.
  - rewrite zlen_cons. lia.
  - discriminate.
  - discriminate.
  - rewrite zlen_cons. lia.
Qed.

Lemma le_St : forall file s r e lg m, St file s r e lg -> St file (log_error m s) r e (lg ++ [m]).
Proof.
  intros file s r e lg m ([Hp Hr Hb Hl] & H & He & Hg).
  repeat split; simpl; auto; try lia; try (eapply Hl; eauto). congruence.
Qed.

Lemma le_last : forall m s, last (log_error m s) = last s.
Proof. reflexivity. Qed.

Lemma pk_St : forall file s r e lg, St file s r e lg ->
  exists s', peek2 s = (firstn 2 r, s') /\ St file s' r e lg /\ Z.min 2 (zlen r) <= buf s'.
Proof.
  intros file s r e lg ([Hp Hr Hb Hl] & H & He & Hg). unfold peek2. rewrite H in *.
  eexists; split; [reflexivity|].
  assert (F : filled s = Z.min 4096 (zlen r)) by (unfold filled, bufsize; rewrite H; reflexivity).
  assert (N := zlen_nonneg _ r).
  repeat split; simpl; auto; try lia.
  - rewrite F. destruct (buf s <? 2) eqn:E; [|apply Z.ltb_ge in E]; lia.
  - rewrite F; rewrite ?H. destruct (buf s <? 2) eqn:E; [|apply Z.ltb_ge in E]; lia.
  - discriminate.
  - discriminate.
  - rewrite F. destruct (buf s <? 2) eqn:E; [apply Z.ltb_lt in E|apply Z.ltb_ge in E]; lia.
Qed.

Lemma skipn_zdrop : forall (file : bytes) p n, 0 <= p ->
  skipn n (zdrop p file) = zdrop (p + Z.of_nat n) file.
Proof.
  intros. rewrite <- zdrop_zdrop by lia. rewrite (zdrop_skipn _ (Z.of_nat n)) by lia.
  rewrite Nat2Z.id. reflexivity.
Qed.

(** Discard directly after a successful Peek: [last] is None then, so that the
    discarded byte cannot be put back. *)
Lemma dc_St : forall file s n r e lg, St file s r e lg -> Z.of_nat n <= buf s -> last s = None ->
  St file (discard n s) (skipn n r) e lg.
Proof.
  intros file s n r e lg ([Hp Hr Hb Hl] & H & He & Hg) Hn L. rewrite H in *.
  assert (zlen (skipn n r) = zlen r - Z.of_nat n).
  { unfold zlen in *. rewrite skipn_length. lia. }
  repeat split; simpl; auto; try lia.
  all: try congruence; try (rewrite H; lia).
  { rewrite H, Hr. apply skipn_zdrop; lia. }
  all: simpl in *; congruence.
Qed.

Lemma pk_last : forall s, last (snd (peek2 s)) = None.
Proof. reflexivity. Qed.

(** Seeking to a position one has been at. *)
Lemma sk_St : forall file s s2 r e lg, St file s r e lg -> St file (seek file (pos s) s2) r e (log s2).
Proof.
  intros file s s2 r e lg ([Hp Hr Hb Hl] & H & He & Hg). unfold seek.
  destruct (pos s <? 0) eqn:E; [apply Z.ltb_lt in E; lia|].
  repeat split; simpl; auto; try lia.
  - apply zlen_nonneg.
  - discriminate.
  - discriminate.
  - congruence.
Qed.

Lemma sk_nonneg : forall file off s, 0 <= off ->
  St file (seek file off s) (zdrop off file) (off + zlen (zdrop off file)) (log s).
Proof.
  intros file off s H. unfold seek. destruct (off <? 0) eqn:E; [apply Z.ltb_lt in E; lia|].
  repeat split; simpl; auto; try lia.
  - apply zlen_nonneg.
  - discriminate.
  - discriminate.
Qed.

(** a failing seek to a negative offset *)
Lemma sk_neg : forall file off s, wf file s -> off < 0 -> wf file (seek file off s).
Proof.
  intros file off s [Hp Hr Hb Hl] H. unfold seek. destruct (off <? 0) eqn:E; [|apply Z.ltb_ge in E; lia].
  split; simpl.
  - lia.
  - rewrite Hr, skipn_zdrop by lia. f_equal. lia.
  - pose proof (zlen_nonneg _ (skipn (Z.to_nat (buf s)) (rest s))). lia.
  - discriminate.
Qed.

Lemma seek_wf : forall file off s, wf file s -> wf file (seek file off s).
Proof.
  intros file off s H. destruct (Z_lt_le_dec off 0).
  - apply sk_neg; auto.
  - apply sk_nonneg; auto.
Qed.

Lemma last_map_Some : forall (l : bytes) b d, l <> [] -> List.last (map Some l) d = Some b -> exists l', l = l' ++ [b].
Proof.
  intros l b d Hn H. destruct (exists_last Hn) as (l' & a & E). subst l.
  rewrite map_app in H. simpl in H. rewrite last_last in H. injection H as ->. eauto.
Qed.

(** Read: some non-empty prefix of the unread bytes, of length [n] unless fewer
    bytes are buffered. *)
Lemma ru_cons : forall file s n b r e lg, St file s (b :: r) e lg -> (0 < n)%nat ->
  exists k s', (0 < k <= n)%nat /\ (k <= List.length (b :: r))%nat /\
    read_upto n s = (Some (firstn k (b :: r)), s') /\
    St file s' (skipn k (b :: r)) e lg /\
    (Z.of_nat n <= (if buf s =? 0 then Z.min 4096 (zlen (b :: r)) else buf s) -> k = n) /\
    Z.of_nat k = Z.min (Z.of_nat n) (if buf s =? 0 then Z.min 4096 (zlen (b :: r)) else buf s).
Proof.
  intros file s n b r e lg ([Hp Hr Hb Hl] & H & He & Hg) Hn. unfold read_upto. rewrite H in *.
  assert (F : filled s = Z.min 4096 (zlen (b :: r))) by (unfold filled, bufsize; rewrite H; reflexivity).
  rewrite F. set (avail := if buf s =? 0 then Z.min 4096 (zlen (b :: r)) else buf s).
  assert (L : 1 <= zlen (b :: r)) by (rewrite zlen_cons; pose proof (zlen_nonneg _ r); lia).
  assert (A : 1 <= avail <= zlen (b :: r)).
  { unfold avail. destruct (buf s =? 0) eqn:E; [|apply Z.eqb_neq in E]; lia. }
  set (k := Nat.min n (Z.to_nat avail)).
  assert (K : (0 < k <= n)%nat) by (unfold k; lia).
  assert (K2 : (k <= List.length (b :: r))%nat) by (unfold k, zlen in *; lia).
  exists k. eexists. split; [exact K|]. split; [exact K2|]. split; [reflexivity|].
  assert (LEN : zlen (skipn k (b :: r)) = zlen (b :: r) - Z.of_nat k).
  { unfold zlen in *. rewrite skipn_length. lia. }
  split; [|split].
  - assert (LL : forall x, List.last (map Some (firstn k (b :: r))) (last s) = Some x ->
                 0 < pos s + Z.of_nat k /\ zdrop (pos s + Z.of_nat k - 1) file = x :: skipn k (b :: r)).
    { intros x Hx. split; [lia|].
      assert (NE : firstn k (b :: r) <> []) by (destruct k; [lia|simpl; discriminate]).
      destruct (last_map_Some _ _ _ NE Hx) as (l' & El).
      assert (E2 : zdrop (pos s) file = l' ++ x :: skipn k (b :: r)).
      { rewrite <- Hr. rewrite <- (firstn_skipn k (b :: r)) at 1. rewrite El. rewrite <- app_assoc. reflexivity. }
      assert (Ll : Z.of_nat k = zlen l' + 1).
      { assert (List.length (firstn k (b :: r)) = k) by (apply firstn_length_le; exact K2).
        rewrite El, app_length in H0. simpl in H0. unfold zlen. lia. }
      replace (pos s + Z.of_nat k - 1) with (pos s + zlen l') by lia.
      rewrite <- zdrop_zdrop by (try apply zlen_nonneg; lia). rewrite E2. apply zdrop_app. }
    repeat split; cbn [pos buf last rest log]; auto; try lia.
    + rewrite Hr. apply skipn_zdrop; lia.
    + apply LL in H0. tauto.
  - unfold k. lia.
  - unfold k. lia.
Qed.

Lemma ru_nil : forall file s n e lg, St file s [] e lg -> read_upto n s = (None, s).
Proof. intros file s n e lg (_ & H & _). unfold read_upto. rewrite H. reflexivity. Qed.

(** operations that preserve consistency without any further assumption *)
Lemma read_byte_wf : forall file s, wf file s -> wf file (snd (read_byte s)).
Proof.
  intros file s H. destruct (rest s) as [|b r] eqn:E.
  - rewrite (rb_nil file s (pos s + 0) (log s)); [exact H|].
    split; [exact H|]. split; [exact E|]. split; reflexivity.
  - destruct (rb_cons file s b r (pos s + zlen (b :: r)) (log s)) as (s' & -> & S & _).
    + split; [exact H|]. split; [exact E|]. split; reflexivity.
    + apply S.
Qed.

Lemma unread_byte_wf : forall file s, wf file s -> wf file (unread_byte s).
Proof.
  intros file s H. destruct (last s) as [b|] eqn:E.
  - destruct (ur_St file s b _ _ _ (St_intro _ _ H) E) as [W _]. exact W.
  - unfold unread_byte. rewrite E. exact H.
Qed.

Lemma log_error_wf : forall file m s, wf file s -> wf file (log_error m s).
Proof. intros file m s H. apply (le_St file s _ _ _ m (St_intro _ _ H)). Qed.
