(** OrderP.v -- the order in which Go iterates over its maps changes the order of
    what is written and nothing else (C85). *)
From Verif Require Import Base BaseP Msg Reader ReaderP Num Lexer Obj ReadObj Env Getters Crypt Stream GetObj Regex Xref Security Load Font Page Tree
  Output Render Extract Parse RelP GetObjP SpecRead SpecFetch FetchP SpecLook LookP SecurityP CryptObjP LoadInvP RepairP SpecOut SpecScan SpecOrder OutP RawP ChunkP ScanP.
From Coq Require Import Strings.String Sorting.Permutation.
Local Open Scope m_scope.

(** ** Only the entries of the cross-reference table matter, not how it is stored *)
Definition same_table (x y : xmap) : Prop := forall n, xget n x = xget n y.
Lemma same_table_sym : forall x y, same_table x y -> same_table y x.
Proof. intros x y H n. symmetry. apply H. Qed.
Lemma same_table_trans : forall x y z, same_table x y -> same_table y z -> same_table x z.
Proof. intros x y z H K n. rewrite H. apply K. Qed.

(** Replacing the table by an equivalent one changes nothing else. *)
Definition blind {A} (m : M A) : Prop := forall p x, same_table x (pxref p) ->
  match m p with
  | Ok (a, p') => m (with_xref x p) = Ok (a, with_xref x p') /\ pxref p' = pxref p
  | Panic => m (with_xref x p) = Panic
  | OutOfFuel => m (with_xref x p) = OutOfFuel
  end.
Lemma blind_ret : forall A (a : A), blind (ret a).
Proof. intros A a p x H. split; reflexivity. Qed.
Lemma blind_lift : forall A (r : res A), blind (lift r).
Proof. intros A r p x H. unfold lift. destruct r; try reflexivity. split; reflexivity. Qed.
Lemma blind_bind : forall A B (m : M A) (k : A -> M B), blind m -> (forall a, blind (k a)) -> blind (bind m k).
Proof.
  intros A B m k Hm Hk p x H. unfold bind. specialize (Hm p x H). destruct (m p) as [[a p1]| |]; [| rewrite Hm; reflexivity | rewrite Hm; reflexivity].
  destruct Hm as [-> X]. specialize (Hk a p1 x). rewrite X in Hk. specialize (Hk H).
  destruct (k a p1) as [[b p2]| |]; exact Hk.
Qed.
Lemma blind_onrd : forall A (f : rd -> A * rd), blind (onrd f).
Proof. intros A f p x H. unfold onrd. cbn [prd with_xref]. destruct (f (prd p)) as [a s]. split; reflexivity. Qed.
Lemma blind_onrdr : forall A (f : rd -> res (A * rd)), blind (onrdr f).
Proof. intros A f p x H. unfold onrdr. cbn [prd with_xref]. destruct (f (prd p)) as [[a s]| |]; try reflexivity. split; reflexivity. Qed.
Lemma blind_pseek : forall file off, blind (pseek file off).
Proof. intros file off p x H. split; reflexivity. Qed.
(** a computation that looks at the state first *)
Lemma blind_look : forall A (m : pst -> M A), (forall p, blind (m p)) -> (forall p x q, m (with_xref x p) q = m p q) -> blind (fun p => m p p).
Proof. intros A m H Q p x T. rewrite Q. exact (H p p x T). Qed.

Ltac bl := repeat match goal with
  | |- blind (ret _) => apply blind_ret
  | |- blind (lift _) => apply blind_lift
  | |- blind (onrd _) => apply blind_onrd
  | |- blind (onrdr _) => apply blind_onrdr
  | |- blind (pseek _ _) => apply blind_pseek
  | |- blind (bind _ _) => apply blind_bind; [|intros]
  | |- blind (let '(_, _) := ?x in _) => destruct x
  | |- blind (if ?b then _ else _) => destruct b
  | |- forall _, _ => intro
  end; auto.

Section Blind.
  Variable E : env.
  Variable rs : Z -> M iobj.
  Hypothesis Hrs : forall n, blind (rs n).
  Variable fuel : nat.
  Lemma blind_d_object : forall d k, blind (d_object rs d k).
  Proof. intros d k. unfold d_object. destruct (dget k d) as [[]|]; bl. Qed.
  Lemma blind_a_object : forall d k, blind (a_object rs d k).
  Proof. intros d k. unfold a_object. destruct (zget d k) as [[]|]; bl. Qed.
  Hint Resolve blind_d_object blind_a_object : core.
  Lemma blind_d_name : forall d k, blind (d_name rs d k). Proof. intros; unfold d_name; bl. Qed.
  Lemma blind_d_int : forall d k, blind (d_int rs d k). Proof. intros; unfold d_int; bl. Qed.
  Lemma blind_d_array : forall d k, blind (d_array rs d k). Proof. intros; unfold d_array; bl. Qed.
  Lemma blind_d_dict : forall d k, blind (d_dict rs d k). Proof. intros; unfold d_dict; bl. Qed.
  Lemma blind_a_name : forall d k, blind (a_name rs d k). Proof. intros; unfold a_name; bl. Qed.
  Lemma blind_a_dict : forall d k, blind (a_dict rs d k). Proof. intros; unfold a_dict; bl. Qed.
  Hint Resolve blind_d_name blind_d_int blind_d_array blind_d_dict blind_a_name blind_a_dict : core.
  Lemma blind_int_or : forall d k z, blind (int_or rs d k z). Proof. intros; unfold int_or; bl. Qed.
  Hint Resolve blind_int_or : core.
  Lemma blind_rev : forall data parms, blind (rev_predictor rs fuel data parms). Proof. intros; unfold rev_predictor; bl. Qed.
  Hint Resolve blind_rev : core.
  Lemma blind_decode : forall f data parms, blind (decode_stream E rs fuel f data parms).
  Proof.
    intros f data parms; unfold decode_stream. destruct data as [[|x data]|]; bl.
    - unfold flate_decode. destruct (e_zlib E (x :: data)) as [[out err]|]; bl.
    - unfold lzw_decode; bl.
  Qed.
  Hint Resolve blind_decode : core.
  Lemma blind_decode_loop : forall k i fl pl data, blind (decode_loop E rs fuel k i fl pl data).
  Proof. induction k as [|k IH]; intros; cbn [decode_loop]; bl. Qed.
  Hint Resolve blind_decode_loop : core.
  Lemma blind_read_stream : forall dec fl pl, blind (read_stream E rs fuel dec fl pl).
  Proof. intros; unfold read_stream. apply blind_bind; [apply blind_onrd |]. intros [d|]; bl. Qed.
  Lemma blind_filter_list : forall d, blind (filter_list rs d). Proof. intros; unfold filter_list; bl. Qed.
  Lemma blind_parms_list : forall d, blind (parms_list rs d). Proof. intros; unfold parms_list; bl. Qed.
  Lemma blind_choose : forall e d fl pl, blind (choose_crypt rs e d fl pl).
  Proof.
    intros e d fl pl. unfold choose_crypt. destruct e; [|bl].
    match goal with |- blind (fun p => ?b) => idtac end.
    apply (blind_look _ (fun p => bind (d_name rs d (lit "Type")) _)); [| intros; reflexivity].
    intros p. destruct fl; bl.
  Qed.
  Hint Resolve blind_filter_list blind_parms_list blind_choose blind_read_stream : core.
  Lemma blind_in_use : forall file n e, blind (get_in_use E rs fuel file n e).
  Proof.
    intros file n e. unfold get_in_use. apply blind_bind; [apply blind_pseek |]. intros _. apply blind_bind; [apply blind_onrd |]. intros _.
    apply (blind_look _ (fun p => bind (onrdr (ReadObject file (new_decryptor E (if x_enc e then sh_string (psh p) else CFNone) n (x_gen e)))) _)); [| intros; reflexivity].
    intros p. bl.
  Qed.
End Blind.

Lemma blind_restoring : forall file m, blind m -> blind (restoring file m).
Proof.
  intros file m H. unfold restoring. apply (blind_look _ (fun p => bind m (fun o => bind (pseek file (pos (prd p))) (fun _ => ret o)))); [| intros; reflexivity].
  intros p. bl.
Qed.
Lemma blind_get : forall fuel E file, (forall n, blind (get_object fuel E file n)) /\ (forall n seen, blind (resolve fuel E file n seen)).
Proof.
  induction fuel as [| f IH]; intros E file; (split; [intros n | intros n seen]); try (intros p x H; reflexivity); destruct (IH E file) as [IG IR].
  - intros p x H. cbn [get_object]. cbn [pxref with_xref]. rewrite (H n). destruct (xget n (pxref p)) as [e |]; [| split; reflexivity].
    destruct (x_type e =? XrefTypeIndirectObject); [| split; reflexivity].
    apply blind_in_use; [| exact H]. intros r. apply blind_restoring. apply IR.
  - cbn [resolve]. destruct (zmem n seen); [apply blind_ret |]. apply blind_bind; [apply IG |]. intros o. destruct (ival o); try apply blind_ret. apply IR.
Qed.

(** ** Computations that do the same on corresponding parsers *)
Record corr (p q : pst) : Prop := {
  co_table : same_table (pxref p) (pxref q);
  co_sh : psh p = psh q;
  co_ok : offsets_ok (pxref p)
}.
Record next (p p' : pst) : Prop := { ne_xref : pxref p' = pxref p; ne_sh : psh p' = psh p }.
Definition logged (p p' q q' : pst) : Prop := exists ms ms', log (prd p') = log (prd p) ++ ms /\ log (prd q') = log (prd q) ++ ms' /\ Permutation ms ms'.

Lemma next_refl : forall p, next p p. Proof. intros; split; reflexivity. Qed.
Lemma next_trans : forall p q r, next p q -> next q r -> next p r. Proof. intros p q r [A B] [C D]; split; congruence. Qed.
Lemma corr_refl : forall p q, corr p q -> corr p p. Proof. intros p q [A B C]; split; [intros n; reflexivity | reflexivity | assumption]. Qed.
Lemma corr_next : forall p q p' q', corr p q -> next p p' -> next q q' -> corr p' q'.
Proof. intros p q p' q' [A B C] [D F] [G H]. split; [rewrite D, G; assumption | congruence | rewrite D; assumption]. Qed.
Lemma logged_refl : forall p q, logged p p q q.
Proof. intros p q. exists [], []. rewrite !app_nil_r. auto. Qed.
Lemma logged_trans : forall p p' p'' q q' q'', logged p p' q q' -> logged p' p'' q' q'' -> logged p p'' q q''.
Proof.
  intros p p' p'' q q' q'' (m & n & A & B & C) (m' & n' & A' & B' & C'). exists (m ++ m'), (n ++ n').
  rewrite A', B', A, B, !app_assoc. split; [reflexivity |]. split; [reflexivity |]. apply Permutation_app; assumption.
Qed.

Definition same_res {A B} (R : A -> B -> Prop) (p q : pst) (x : res (A * pst)) (y : res (B * pst)) : Prop :=
  match x, y with
  | Ok (a, p'), Ok (b, q') => R a b /\ next p p' /\ next q q' /\ logged p p' q q'
  | Ok _, _ | _, Ok _ => False
  | _, _ => True
  end.
Definition same {A B} (R : A -> B -> Prop) (m : M A) (m' : M B) : Prop := forall p q, corr p q -> same_res R p q (m p) (m' q).

Lemma same_ret : forall A B (R : A -> B -> Prop) a b, R a b -> same R (ret a) (ret b).
Proof. intros A B R a b H p q C. split; [assumption |]. split; [apply next_refl |]. split; [apply next_refl | apply logged_refl]. Qed.
Lemma same_lift : forall A (r : res A), same eq (lift r) (lift r).
Proof. intros A r p q C. unfold lift. destruct r; cbn; auto. split; [reflexivity |]. split; [apply next_refl |]. split; [apply next_refl | apply logged_refl]. Qed.
Lemma same_bind : forall A B A' B' (R : A -> A' -> Prop) (Q : B -> B' -> Prop) m m' (k : A -> M B) (k' : A' -> M B'),
  same R m m' -> (forall a a', R a a' -> same Q (k a) (k' a')) -> same Q (bind m k) (bind m' k').
Proof.
  intros A B A' B' R Q m m' k k' Hm Hk p q C. unfold bind. specialize (Hm p q C).
  destruct (m p) as [[a p1]| |], (m' q) as [[a' q1]| |]; cbn in Hm |- *; try tauto.
  destruct Hm as (H & N1 & N2 & L). specialize (Hk a a' H p1 q1 (corr_next _ _ _ _ C N1 N2)).
  destruct (k a p1) as [[b p2]| |], (k' a' q1) as [[b' q2]| |]; cbn in Hk |- *; try tauto.
  destruct Hk as (H2 & N3 & N4 & L2). split; [assumption |]. split; [eapply next_trans; eassumption |]. split; [eapply next_trans; eassumption | eapply logged_trans; eassumption].
Qed.
Lemma same_bind_eq : forall A B B' (Q : B -> B' -> Prop) m m' (k : A -> M B) (k' : A -> M B'),
  same eq m m' -> (forall a, same Q (k a) (k' a)) -> same Q (bind m k) (bind m' k').
Proof. intros. eapply same_bind; [eassumption |]. intros a a' <-. apply H0. Qed.

(** Resolve *)
Lemma with_xref_id : forall q x, pxref q = x -> with_xref x q = q.
Proof. intros q x <-. destruct q; reflexivity. Qed.
Lemma eq_respects : forall file, respects file (@eq rd).
Proof. intros file. split; intros; subst; auto. Qed.
Lemma eq_seek : forall file off s t, @eq rd s t -> seek file off s = seek file off t.
Proof. intros; subst; reflexivity. Qed.
Lemma seek_log : forall file off s, log (seek file off s) = log s.
Proof. intros file off s. unfold seek. destruct (off <? 0); reflexivity. Qed.
Lemma get_object_same : forall fuel E file n, same eq (get_object fuel E file n) (get_object fuel E file n).
Proof.
  intros fuel E file n p q [T H O].
  pose proof (get_object_history fuel E file n p (with_xref (pxref p) q) (conj eq_refl H) (O n)) as G.
  pose proof (proj1 (blind_get fuel E file) n q (pxref p) T) as B.
  pose proof (get_object_rel file (@eq rd) (eq_respects file) (eq_seek file) fuel E n) as F.
  pose proof (F p p (conj eq_refl (conj eq_refl eq_refl))) as F1. pose proof (F q q (conj eq_refl (conj eq_refl eq_refl))) as F2. unfold same_res. clear F.
  destruct (get_object fuel E file n p) as [[a p']| |].
  - destruct (get_object fuel E file n q) as [[b q']| |]; [| rewrite B in G; destruct G | rewrite B in G; destruct G].
    destruct B as [B _]. rewrite B in G. destruct G as [<- (ms & L1 & L2)]. destruct F1 as (_ & _ & [X1 _ S1]). destruct F2 as (_ & _ & [X2 _ S2]).
    split; [reflexivity |]. split; [split; congruence |]. split; [split; congruence |]. exists ms, ms. cbn in L2. auto.
  - destruct (get_object fuel E file n q) as [[b q']| |]; [| exact I | exact I]. destruct B as [B _]. rewrite B in G. destruct G.
  - destruct (get_object fuel E file n q) as [[b q']| |]; [| exact I | exact I]. destruct B as [B _]. rewrite B in G. destruct G.
Qed.
Lemma resolve_same : forall fuel E file n seen, same eq (resolve fuel E file n seen) (resolve fuel E file n seen).
Proof.
  induction fuel as [| f IH]; intros E file n seen; [intros p q C; exact I |]. cbn [resolve].
  destruct (zmem n seen); [apply same_ret; reflexivity |]. apply same_bind_eq; [apply get_object_same |]. intros o. destruct (ival o); try (apply same_ret; reflexivity). apply IH.
Qed.
Lemma Resolve_same : forall fuel E file n, same eq (Resolve fuel E file n) (Resolve fuel E file n).
Proof.
  intros fuel E file n p q C. unfold Resolve, restoring, bind, pseek, ret. pose proof (resolve_same fuel E file n [] p q C) as H.
  destruct (resolve fuel E file n [] p) as [[a p']| |], (resolve fuel E file n [] q) as [[b q']| |]; cbn in H |- *; try tauto.
  destruct H as (-> & [N1 N2] & [N3 N4] & (ms & ms' & L1 & L2 & L3)). split; [reflexivity |]. split; [split; assumption |]. split; [split; assumption |].
  exists ms, ms'. cbn [prd with_rd]. rewrite !seek_log. auto.
Qed.

(** two computations in either order *)
Lemma same_swap : forall A B C D (Q : C -> D -> Prop) (m : M A) (m2 : M B) (K : A -> B -> M C) (K' : A -> B -> M D),
  same eq m m -> same eq m2 m2 -> (forall a b, same Q (K a b) (K' a b)) ->
  same Q (bind m (fun a => bind m2 (fun b => K a b))) (bind m2 (fun b => bind m (fun a => K' a b))).
Proof.
  intros A B C D Q m m2 K K' H1 H2 HK p q CO. unfold bind. pose proof (H1 p q CO) as A1. pose proof (H2 p q CO) as A2. unfold same_res in A1, A2 |- *.
  destruct (m p) as [[a p1]| |] eqn:R1.
  - destruct (m q) as [[a' qx]| |]; [| destruct A1 | destruct A1]. destruct A1 as (<- & N1 & NX & L1).
    assert (C1 : corr p1 q) by (eapply corr_next; [exact CO | exact N1 | apply next_refl]).
    pose proof (H2 p1 q C1) as A3. unfold same_res in A3. destruct (m2 q) as [[b q1]| |].
    + destruct (m2 p1) as [[b' p2]| |]; [| destruct A3 | destruct A3]. destruct A3 as (-> & N2 & N3 & L3).
      assert (C2 : corr p q1) by (eapply corr_next; [exact CO | apply next_refl | exact N3]).
      pose proof (H1 p q1 C2) as A4. unfold same_res in A4. rewrite R1 in A4. destruct (m q1) as [[a' q2]| |]; [| destruct A4 | destruct A4].
      destruct A4 as (<- & _ & N4 & L4). assert (C3 : corr p2 q2) by (eapply corr_next; [exact CO | eapply next_trans; eassumption | eapply next_trans; eassumption]).
      specialize (HK a b p2 q2 C3). unfold same_res in HK. destruct (K a b p2) as [[c p3]| |], (K' a b q2) as [[d q3]| |]; try exact HK.
      destruct HK as (HQ & N5 & N6 & L5). split; [exact HQ |]. split; [eapply next_trans; [eapply next_trans; eassumption | exact N5] |].
      split; [eapply next_trans; [eapply next_trans; eassumption | exact N6] |]. eapply logged_trans; [| exact L5].
      destruct L3 as (x & y & X1 & X2 & X3). destruct L4 as (z & t & X4 & X5 & X6).
      exists (z ++ x), (y ++ t). rewrite X1, X4, X5, X2, !app_assoc. split; [reflexivity |]. split; [reflexivity |].
      eapply Permutation_trans; [apply Permutation_app_comm |]. apply Permutation_app; assumption.
    + destruct (m2 p1) as [[b' p2]| |]; [destruct A3 | exact I | exact I].
    + destruct (m2 p1) as [[b' p2]| |]; [destruct A3 | exact I | exact I].
  - destruct (m2 q) as [[b q1]| |] eqn:R2; [| exact I | exact I].
    destruct (m2 p) as [[b' p2]| |]; [| destruct A2 | destruct A2]. destruct A2 as (_ & _ & N3 & _).
    assert (C2 : corr p q1) by (eapply corr_next; [exact CO | apply next_refl | exact N3]).
    pose proof (H1 p q1 C2) as A4. unfold same_res in A4. rewrite R1 in A4. destruct (m q1) as [[a' q2]| |]; [destruct A4 | exact I | exact I].
  - destruct (m2 q) as [[b q1]| |] eqn:R2; [| exact I | exact I].
    destruct (m2 p) as [[b' p2]| |]; [| destruct A2 | destruct A2]. destruct A2 as (_ & _ & N3 & _).
    assert (C2 : corr p q1) by (eapply corr_next; [exact CO | apply next_refl | exact N3]).
    pose proof (H1 p q1 C2) as A4. unfold same_res in A4. rewrite R1 in A4. destruct (m q1) as [[a' q2]| |]; [destruct A4 | exact I | exact I].
Qed.
Lemma logged_mid : forall p p1 p2 q q', logged p p1 p p2 -> logged p p2 q q' -> logged p p1 q q'.
Proof.
  intros p p1 p2 q q' (x & y & X1 & X2 & X3) (z & t & X4 & X5 & X6). rewrite X2 in X4. apply app_inv_head in X4. subst z.
  exists x, t. split; [assumption |]. split; [assumption |]. eapply Permutation_trans; eassumption.
Qed.
Lemma same_trans : forall A B C (R : A -> B -> Prop) (Q : B -> C -> Prop) (S : A -> C -> Prop) m1 m2 m3,
  (forall a b c, R a b -> Q b c -> S a c) -> same R m1 m2 -> same Q m2 m3 -> same S m1 m3.
Proof.
  intros A B C R Q S m1 m2 m3 T H1 H2 p q CO. specialize (H1 p p (corr_refl _ _ CO)). specialize (H2 p q CO). unfold same_res in *.
  destruct (m1 p) as [[a p1]| |], (m2 p) as [[b p2]| |], (m3 q) as [[c q']| |]; try tauto.
  destruct H1 as (HR & N1 & N2 & L1). destruct H2 as (HQ & N3 & N4 & L2). split; [eapply T; eassumption |]. split; [assumption |]. split; [assumption |].
  eapply logged_mid; eassumption.
Qed.

Ltac sm := repeat match goal with
  | |- same _ (ret _) (ret _) => apply same_ret; reflexivity
  | |- same eq (lift _) (lift _) => apply same_lift
  | |- same _ (bind _ _) (bind _ _) => apply same_bind_eq; [|intros]
  | |- same _ (let '(_, _) := ?x in _) _ => destruct x
  | |- same _ (if ?b then _ else _) _ => destruct b
  | |- forall _, _ => intro
  end; auto.

Section Same.
  Variable E : env.
  Variable rs : Z -> M iobj.
  Hypothesis Hrs : forall n, same eq (rs n) (rs n).
  Lemma s_object : forall d k, same eq (d_object rs d k) (d_object rs d k).
  Proof. intros d k. unfold d_object. destruct (dget k d) as [[]|]; sm. Qed.
  Lemma sa_object : forall d k, same eq (a_object rs d k) (a_object rs d k).
  Proof. intros d k. unfold a_object. destruct (zget d k) as [[]|]; sm. Qed.
  Hint Resolve s_object sa_object : core.
  Lemma s_name : forall d k, same eq (d_name rs d k) (d_name rs d k). Proof. intros; unfold d_name; sm. Qed.
  Lemma s_int : forall d k, same eq (d_int rs d k) (d_int rs d k). Proof. intros; unfold d_int; sm. Qed.
  Lemma s_bool : forall d k, same eq (d_bool rs d k) (d_bool rs d k). Proof. intros; unfold d_bool; sm. Qed.
  Lemma s_array : forall d k, same eq (d_array rs d k) (d_array rs d k). Proof. intros; unfold d_array; sm. Qed.
  Lemma s_dict : forall d k, same eq (d_dict rs d k) (d_dict rs d k). Proof. intros; unfold d_dict; sm. Qed.
  Lemma s_string : forall d k, same eq (d_string rs d k) (d_string rs d k). Proof. intros; unfold d_string; sm. Qed.
  Lemma s_stream : forall d k, same eq (d_stream rs d k) (d_stream rs d k).
  Proof. intros; unfold d_stream. destruct (dget k d) as [[]|]; sm. Qed.
  Lemma sa_name : forall d k, same eq (a_name rs d k) (a_name rs d k). Proof. intros; unfold a_name; sm. Qed.
  Lemma sa_dict : forall d k, same eq (a_dict rs d k) (a_dict rs d k). Proof. intros; unfold a_dict; sm. Qed.
  Lemma sa_string : forall d k, same eq (a_string rs d k) (a_string rs d k). Proof. intros; unfold a_string; sm. Qed.
  Lemma sa_stream : forall d k, same eq (a_stream rs d k) (a_stream rs d k).
  Proof. intros; unfold a_stream. destruct (zget d k) as [[]|]; sm. Qed.
  Hint Resolve s_name s_int s_bool s_array s_dict s_string s_stream sa_name sa_dict sa_string sa_stream : core.

  Lemma s_name_tree : forall fuel,
    (forall d seen, same eq (name_tree rs fuel d seen) (name_tree rs fuel d seen)) /\
    (forall k i kids acc seen, same eq (name_kids rs fuel k i kids acc seen) (name_kids rs fuel k i kids acc seen)).
  Proof.
    induction fuel as [| f [IT IK]]; [split; intros; intros p q C; exact I |]. split.
    - intros d seen. cbn [name_tree]. sm.
    - intros k i kids acc seen. cbn [name_kids]. destruct k; [sm |]. destruct (zget kids i) as [[]|]; sm.
  Qed.
  Lemma s_name_map : forall fuel d k, same eq (name_tree_map rs fuel d k) (name_tree_map rs fuel d k).
  Proof. intros. unfold name_tree_map. sm. apply s_name_tree. Qed.
  Lemma s_kids : forall fuel,
    (forall d seen, same eq (resolve_kids rs fuel d seen) (resolve_kids rs fuel d seen)) /\
    (forall kids acc seen, same eq (page_kids rs fuel kids acc seen) (page_kids rs fuel kids acc seen)).
  Proof.
    induction fuel as [| f [IT IK]]; [split; intros; intros p q C; exact I |]. split.
    - intros d seen. cbn [resolve_kids]. sm.
    - intros kids acc seen. cbn [page_kids]. destruct kids as [| [] kids]; sm. destruct (ival a); sm.
  Qed.
  Lemma s_page_tree : forall fuel d k, same eq (page_tree rs fuel d k) (page_tree rs fuel d k).
  Proof. intros. unfold page_tree. sm. apply s_kids. Qed.
  Lemma s_font : forall fuel d, same eq (new_font fuel E rs d) (new_font fuel E rs d).
  Proof. intros. unfold new_font. sm. Qed.
  Lemma s_xfa : forall k i a acc, same eq (xfa_streams rs k i a acc) (xfa_streams rs k i a acc).
  Proof. induction k as [| k IH]; intros; cbn [xfa_streams]; sm. Qed.

  (** a page's fonts, loaded in any order *)
  Definition same_fonts (f g : fontmap) : Prop := forall k, mget bseq k f = mget bseq k g.
  Lemma set_fonts : forall k x f g, same_fonts f g -> same_fonts (mset bseq k x f) (mset bseq k x g).
  Proof.
    intros k x f g H k2. destruct (bseq k2 k) eqn:Q.
    - apply bseq_eq in Q. subst k2. rewrite !(mget_mset_same bseq bseq_eq). reflexivity.
    - assert (k2 <> k) by (intros ->; rewrite bseq_refl in Q; discriminate). rewrite !(mget_mset_other bseq bseq_eq) by congruence. apply H.
  Qed.
  Lemma s_fonts_same : forall fuel fonts names f g, same_fonts f g -> same same_fonts (load_fonts E rs fuel names fonts f) (load_fonts E rs fuel names fonts g).
  Proof.
    intros fuel fonts. induction names as [| k l IH]; intros f g H; cbn [load_fonts]; [apply same_ret; exact H |].
    apply same_bind_eq; [apply s_dict |]. intros [info ok]. apply same_bind_eq; [apply s_font |]. intros ft. apply IH.
    apply set_fonts. exact H.
  Qed.
  Lemma s_fonts : forall fuel fonts names names', Permutation names names' -> forall f g, same_fonts f g ->
    same same_fonts (load_fonts E rs fuel names fonts f) (load_fonts E rs fuel names' fonts g).
  Proof.
    intros fuel fonts names names' P. induction P as [| k l l' P IH | x y l | l l' l'' P1 IH1 P2 IH2]; intros f g H.
    - apply s_fonts_same. exact H.
    - cbn [load_fonts]. apply same_bind_eq; [apply s_dict |]. intros [info ok]. apply same_bind_eq; [apply s_font |]. intros ft. apply IH.
      apply set_fonts. exact H.
    - set (one := fun k => bind (d_dict rs fonts k) (fun i => new_font fuel E rs (fst i))).
      assert (ST : forall a b l f p, load_fonts E rs fuel (a :: b :: l) fonts f p =
        bind (one a) (fun x => bind (one b) (fun y => load_fonts E rs fuel l fonts (mset bseq b y (mset bseq a x f)))) p).
      { intros a b l0 f0 p. cbn [load_fonts]. unfold one, bind. destruct (d_dict rs fonts a p) as [[[i ok] p1]| |]; try reflexivity. cbn [fst].
        destruct (new_font fuel E rs i p1) as [[x0 p2]| |]; try reflexivity. destruct (d_dict rs fonts b p2) as [[[j ok2] p3]| |]; reflexivity. }
      assert (S1 : forall k, same eq (one k) (one k)). { intros k. unfold one. apply same_bind_eq; [apply s_dict |]. intros i. apply s_font. }
      intros p q CO. rewrite (ST y x l f p), (ST x y l g q).
      destruct (list_eq_dec Byte.byte_eq_dec x y) as [-> | D].
      + revert p q CO. change (same same_fonts (bind (one y) (fun a => bind (one y) (fun b => load_fonts E rs fuel l fonts (mset bseq y b (mset bseq y a f)))))
          (bind (one y) (fun a => bind (one y) (fun b => load_fonts E rs fuel l fonts (mset bseq y b (mset bseq y a g)))))).
        apply same_bind_eq; [apply S1 |]. intros a. apply same_bind_eq; [apply S1 |]. intros b. apply s_fonts_same. apply set_fonts, set_fonts, H.
      + apply (same_swap _ _ _ _ same_fonts (one y) (one x) (fun a b => load_fonts E rs fuel l fonts (mset bseq x b (mset bseq y a f)))
          (fun a b => load_fonts E rs fuel l fonts (mset bseq y a (mset bseq x b g)))); [apply S1 | apply S1 | | exact CO].
        intros a b. apply s_fonts_same. intros k. destruct (list_eq_dec Byte.byte_eq_dec k x) as [-> | Dx].
        * rewrite (mget_mset_same bseq bseq_eq), (mget_mset_other bseq bseq_eq), (mget_mset_same bseq bseq_eq) by congruence. reflexivity.
        * rewrite (mget_mset_other bseq bseq_eq) by congruence. destruct (list_eq_dec Byte.byte_eq_dec k y) as [-> | Dy].
          -- rewrite !(mget_mset_same bseq bseq_eq). reflexivity.
          -- rewrite !(mget_mset_other bseq bseq_eq) by congruence. apply H.
    - eapply same_trans; [| apply IH1; intros k; reflexivity | apply IH2; exact H]. intros a b c X Y k. rewrite X. apply Y.
  Qed.
End Same.

(** ** The same output, in another order *)
Definition matches (V : ev -> ev -> Prop) (w w' : list ev) : Prop := exists u, Permutation w u /\ Forall2 V u w'.
Lemma matches_eq : forall w w', matches eq w w' <-> Permutation w w'.
Proof.
  intros w w'. split.
  - intros (u & P & F). assert (u = w'); [| subst; assumption]. clear P. induction F as [| ? ? ? ? <- ? IH]; [reflexivity | f_equal; assumption].
  - intros P. exists w'. split; [assumption |]. clear P. induction w'; constructor; auto.
Qed.
Lemma matches_app : forall V a b c d, matches V a b -> matches V c d -> matches V (a ++ c) (b ++ d).
Proof. intros V a b c d (u & P & F) (v & P' & F'). exists (u ++ v). split; [apply Permutation_app; assumption | apply Forall2_app; assumption]. Qed.
Lemma matches_refl : forall (V : ev -> ev -> Prop) w, (forall e, V e e) -> matches V w w.
Proof. intros V w H. exists w. split; [reflexivity |]. induction w; constructor; auto. Qed.
Lemma matches_perm : forall V a b c, Permutation a b -> matches V b c -> matches V a c.
Proof. intros V a b c P (u & P' & F). exists u. split; [eapply Permutation_trans; eassumption | assumption]. Qed.

Definition xsame_res {A B} (V : ev -> ev -> Prop) (R : A -> B -> Prop) (p q : pst) (x : list ev * res (A * pst)) (y : list ev * res (B * pst)) : Prop :=
  match x, y with
  | (w, Ok (a, p')), (w', Ok (b, q')) => R a b /\ matches V w w' /\ next p p' /\ next q q' /\ logged p p' q q'
  | (_, Ok _), _ | _, (_, Ok _) => False
  | _, _ => True
  end.
Definition xsame {A B} V (R : A -> B -> Prop) (m : X A) (m' : X B) : Prop := forall p q, corr p q -> xsame_res V R p q (m p) (m' q).

Section XSame.
  Variable V : ev -> ev -> Prop.
  Hypothesis Vr : forall e, V e e.
  Lemma xs_ret : forall A B (R : A -> B -> Prop) a b, R a b -> xsame V R (xret a) (xret b).
  Proof.
    intros A B R a b H p q C. split; [assumption |]. split; [apply matches_refl; exact Vr |]. split; [apply next_refl |].
    split; [apply next_refl | apply logged_refl].
  Qed.
  Lemma xs_out : forall w w', matches V w w' -> xsame V eq (xout w) (xout w').
  Proof. intros w w' H p q C. split; [reflexivity |]. split; [assumption |]. split; [apply next_refl |]. split; [apply next_refl | apply logged_refl]. Qed.
  Lemma xs_lift : forall A B (R : A -> B -> Prop) m m', same R m m' -> xsame V R (xlift m) (xlift m').
  Proof.
    intros A B R m m' H p q C. specialize (H p q C). unfold xlift, xsame_res. unfold same_res in H.
    destruct (m p) as [[a p']| |], (m' q) as [[b q']| |]; try exact H. destruct H as (H & N & N' & L). split; [exact H |]. split; [apply matches_refl; exact Vr |]. auto.
  Qed.
  Lemma xs_bind : forall A B A' B' (R : A -> A' -> Prop) (Q : B -> B' -> Prop) m m' (k : A -> X B) (k' : A' -> X B'),
    xsame V R m m' -> (forall a a', R a a' -> xsame V Q (k a) (k' a')) -> xsame V Q (xbind m k) (xbind m' k').
  Proof.
    intros A B A' B' R Q m m' k k' Hm Hk p q C. unfold xbind. specialize (Hm p q C). unfold xsame_res in Hm |- *.
    destruct (m p) as [w [[a p1]| |]], (m' q) as [w' [[a' q1]| |]]; try exact Hm; try (destruct Hm; fail).
    - destruct Hm as (H & MW & N1 & N2 & L). specialize (Hk a a' H p1 q1 (corr_next _ _ _ _ C N1 N2)). unfold xsame_res in Hk.
      destruct (k a p1) as [v [[b p2]| |]], (k' a' q1) as [v' [[b' q2]| |]]; try exact Hk.
      destruct Hk as (H2 & MV & N3 & N4 & L2). split; [assumption |]. split; [apply matches_app; assumption |]. split; [eapply next_trans; eassumption |].
      split; [eapply next_trans; eassumption | eapply logged_trans; eassumption].
  Qed.
  Lemma xs_bind_eq : forall A B B' (Q : B -> B' -> Prop) m m' (k : A -> X B) (k' : A -> X B'),
    xsame V eq m m' -> (forall a, xsame V Q (k a) (k' a)) -> xsame V Q (xbind m k) (xbind m' k').
  Proof. intros. eapply xs_bind; [eassumption |]. intros a a' <-. apply H0. Qed.
  Lemma xs_pure : forall A (x : list ev * res A), xsame V eq (xpure x) (xpure x).
  Proof.
    intros A [w r] p q C. unfold xpure, xsame_res. cbn [fst snd]. destruct r; try exact I. split; [reflexivity |]. split; [apply matches_refl; exact Vr |].
    split; [apply next_refl |]. split; [apply next_refl | apply logged_refl].
  Qed.
  Lemma xs_weaken : forall A B (R : A -> B -> Prop) (m : X A) (m' : X B), xsame eq R m m' -> xsame V R m m'.
  Proof.
    intros A B R m m' H p q C. specialize (H p q C). unfold xsame_res in *. destruct (m p) as [w [[a p']| |]], (m' q) as [w' [[b q']| |]]; try exact H.
    destruct H as (H & MW & L). split; [exact H |]. split; [| exact L]. apply matches_eq in MW. eapply matches_perm; [exact MW | apply matches_refl; exact Vr].
  Qed.
  Lemma xs_trans : forall A B (m1 m2 : X A) (m3 : X B) (R : A -> B -> Prop), xsame eq eq m1 m2 -> xsame V R m2 m3 -> xsame V R m1 m3.
  Proof.
    intros A B m1 m2 m3 R H1 H2 p q CO. specialize (H1 p p (corr_refl _ _ CO)). specialize (H2 p q CO). unfold xsame_res in *.
    destruct (m1 p) as [w1 [[a p1]| |]], (m2 p) as [w2 [[b p2]| |]], (m3 q) as [w3 [[c q']| |]]; try tauto.
    destruct H1 as (<- & MW & N1 & N2 & L1). destruct H2 as (HQ & MV & N3 & N4 & L2). split; [assumption |].
    split; [eapply matches_perm; [apply matches_eq; exact MW | exact MV] |]. split; [assumption |]. split; [assumption |]. eapply logged_mid; eassumption.
  Qed.
  (** one action after the other *)
  Lemma xs_seq : forall l l', Forall2 (xsame V eq) l l' -> xsame V eq (xseq l) (xseq l').
  Proof. intros l l' F. induction F; cbn [xseq]; [apply xs_ret; reflexivity |]. apply xs_bind_eq; [assumption |]. intros _. assumption. Qed.
End XSame.

(** ... or in any order *)
Lemma xseq_perm : forall l l', Permutation l l' -> Forall (fun m => xsame eq eq m m) l -> xsame eq eq (xseq l) (xseq l').
Proof.
  assert (VR : forall e : ev, e = e) by reflexivity.
  intros l l' P. induction P as [| m l l' P IH | m m2 l | l l' l'' P1 IH1 P2 IH2]; intros F.
  - apply xs_ret; auto.
  - inversion F; subst. cbn [xseq]. apply xs_bind_eq; [assumption |]. intros _. auto.
  - inversion F as [| ? ? H2 F']; subst. inversion F' as [| ? ? H1 F'']; subst. cbn [xseq].
    assert (HK : xsame eq eq (xseq l) (xseq l)). { apply xs_seq; [exact VR |]. clear - F''. induction F''; constructor; auto. }
    intros p q CO. pose proof (H2 p q CO) as A1. pose proof (H1 p q CO) as A2. unfold xsame_res in A1, A2. unfold xbind, xsame_res.
    assert (DEAD : forall (m1 m3 : X unit), xsame eq eq m1 m1 -> xsame eq eq m3 m3 -> (forall w a p', m1 p <> (w, Ok (a, p'))) ->
      forall w a q', xbind m3 (fun _ => xbind m1 (fun _ => xseq l)) q <> (w, Ok (a, q'))).
    { intros m1 m3 HA HB N w a q' R. unfold xbind in R. pose proof (HB p q CO) as B1. unfold xsame_res in B1.
      destruct (m3 q) as [w3 [[[] q3]| |]]; [| discriminate | discriminate]. destruct (m3 p) as [w3' [[[] p3]| |]]; [| destruct B1 | destruct B1].
      destruct B1 as (_ & _ & _ & N3 & _). pose proof (HA p q3 (corr_next _ _ _ _ CO (next_refl _) N3)) as B2. unfold xsame_res in B2.
      destruct (m1 p) as [w1 [[[] p1]| |]]; [exact (N _ _ _ eq_refl) | |];
        destruct (m1 q3) as [w1' [[[] q4]| |]]; try (exfalso; exact B2); discriminate. }
    destruct (m2 p) as [w2 [[[] p2]| |]] eqn:R2.
    + destruct (m2 q) as [w2q [[[] q2]| |]]; [| destruct A1 | destruct A1]. destruct A1 as (_ & MW2 & N2 & N2q & L2).
      pose proof (H1 p2 q (corr_next _ _ _ _ CO N2 (next_refl _))) as A3. unfold xsame_res in A3.
      destruct (m q) as [w1 [[[] q1]| |]].
      * destruct (m p2) as [w1p [[[] p1]| |]]; [| destruct A3 | destruct A3]. destruct A3 as (_ & MW1 & N1 & N1q & L1).
        pose proof (H2 p q1 (corr_next _ _ _ _ CO (next_refl _) N1q)) as A4. unfold xsame_res in A4. rewrite R2 in A4.
        destruct (m2 q1) as [w2' [[[] q3]| |]]; [| destruct A4 | destruct A4]. destruct A4 as (_ & MW2' & _ & N3 & L3).
        assert (CO2 : corr p1 q3) by (eapply corr_next; [exact CO | eapply next_trans; eassumption | eapply next_trans; eassumption]).
        specialize (HK p1 q3 CO2). unfold xsame_res in HK. destruct (xseq l p1) as [v [[[] p4]| |]], (xseq l q3) as [v' [[[] q4]| |]]; try exact HK.
        destruct HK as (_ & MV & N5 & N6 & L5). split; [reflexivity |]. rewrite !app_assoc. split; [apply matches_app; [| exact MV] |].
        { apply matches_eq. eapply Permutation_trans; [apply Permutation_app_comm |]. apply Permutation_app; apply matches_eq; assumption. }
        split; [eapply next_trans; [eapply next_trans; eassumption | exact N5] |]. split; [eapply next_trans; [eapply next_trans; eassumption | exact N6] |].
        eapply logged_trans; [| exact L5]. destruct L1 as (x & y & X1 & X2 & X3). destruct L3 as (z & t & X4 & X5 & X6).
        exists (z ++ x), (y ++ t). rewrite X1, X4, X5, X2, !app_assoc. split; [reflexivity |]. split; [reflexivity |].
        eapply Permutation_trans; [apply Permutation_app_comm |]. apply Permutation_app; assumption.
      * destruct (m p2) as [w1p [[[] p1]| |]]; [destruct A3 | exact I | exact I].
      * destruct (m p2) as [w1p [[[] p1]| |]]; [destruct A3 | exact I | exact I].
    + assert (D := DEAD m2 m H2 H1 ltac:(intros; rewrite R2; discriminate)). unfold xbind in D. 
      match goal with |- match ?y with _ => _ end => destruct y as [w' [[b q']| |]] eqn:RY; [exact (D _ _ _ eq_refl) | exact I | exact I] end.
    + assert (D := DEAD m2 m H2 H1 ltac:(intros; rewrite R2; discriminate)). unfold xbind in D. 
      match goal with |- match ?y with _ => _ end => destruct y as [w' [[b q']| |]] eqn:RY; [exact (D _ _ _ eq_refl) | exact I | exact I] end.
  - eapply xs_trans; [apply IH1; exact F | apply IH2]. eapply Permutation_Forall; eassumption.
Qed.

(** ** Extraction *)
Lemma xbind_cong : forall A B (m m' : X A) (k k' : A -> X B) p, m p = m' p -> (forall a q, k a q = k' a q) -> xbind m k p = xbind m' k' p.
Proof. intros A B m m' k k' p H K. unfold xbind. rewrite H. destruct (m' p) as [w [[a q]| |]]; try reflexivity. rewrite K. reflexivity. Qed.
Lemma text_loop_fonts : forall E c f g, same_fonts f g -> forall fuel cur p, text_loop E c f fuel cur p = text_loop E c g fuel cur p.
Proof.
  intros E c f g H. induction fuel as [| n IH]; intros cur p; [reflexivity |]. cbn [text_loop].
  apply xbind_cong; [reflexivity |]. intros [[cmd ops] e] p1.
  destruct e; try reflexivity; (destruct (bseq cmd (lit "ET")); [reflexivity |]; destruct (bseq cmd (lit "Tf"));
    [apply xbind_cong; [reflexivity |]; intros [name ok] p2; rewrite H; apply IH |];
    destruct (_ || _);
    [apply xbind_cong; [reflexivity |]; intros [s ok] p2; apply xbind_cong; [reflexivity |]; intros _ p3; apply IH |];
    destruct (bseq cmd (lit "TJ"));
    [apply xbind_cong; [reflexivity |]; intros [a ok] p2; apply xbind_cong; [reflexivity |]; intros s p3; apply xbind_cong; [reflexivity |]; intros _ p4; apply IH |];
    apply IH).
Qed.
Lemma page_text_fonts : forall E f g, same_fonts f g -> forall fuel c, page_text fuel E f c = page_text fuel E g c.
Proof.
  intros E f g H fuel c. unfold page_text. enough (Q : forall fuel p, contents_loop E c f fuel p = contents_loop E c g fuel p) by (rewrite Q; reflexivity).
  clear fuel. induction fuel as [| n IH]; intros p; [reflexivity |]. cbn [contents_loop]. apply xbind_cong; [reflexivity |]. intros [[cmd ops] e] p1.
  destruct e; try reflexivity; (destruct (bseq cmd (lit "BT")); [apply xbind_cong; [apply text_loop_fonts; exact H |]; intros _ p2 |]; apply IH).
Qed.

Section Ext.
  Variable E : env.
  Variables OD1 OD2 : order.
  Hypothesis O1 : order_ok OD1.
  Hypothesis O2 : order_ok OD2.
  Variable rs : Z -> M iobj.
  Hypothesis Hrs : forall n, same eq (rs n) (rs n).
  Variable fuel : nat.

  Let xs {A} (m m' : X A) := xsame eq eq m m'.
  Lemma Ve : forall e : ev, e = e. Proof. reflexivity. Qed.
  Hint Resolve Ve : core.
  Lemma e_ret : forall A (a : A), xs (xret a) (xret a). Proof. intros. apply xs_ret; auto. Qed.
  Lemma e_out : forall w, xs (xout w) (xout w). Proof. intros. apply xs_out. apply matches_refl. auto. Qed.
  Lemma e_lift : forall A (m : M A), same eq m m -> xs (xlift m) (xlift m). Proof. intros. apply xs_lift; auto. Qed.
  Lemma e_bind : forall A B (m m' : X A) (k k' : A -> X B), xs m m' -> (forall a, xs (k a) (k' a)) -> xs (xbind m k) (xbind m' k').
  Proof. intros. apply xs_bind_eq; auto. Qed.
  Ltac ex := repeat match goal with
    | |- xs (xret _) (xret _) => apply e_ret
    | |- xs (xout _) (xout _) => apply e_out
    | |- xs (xlift _) (xlift _) => apply e_lift
    | |- xs (xbind _ _) (xbind _ _) => apply e_bind; [|intros]
    | |- xs (xpure _) (xpure _) => apply xs_pure; auto
    | |- xs (let '(_, _) := ?x in _) _ => destruct x
    | |- xs (if ?b then _ else _) _ => destruct b
    | |- forall _, _ => intro
    end; auto.
  Hint Resolve s_name s_int s_array s_dict s_string s_stream sa_dict sa_string sa_stream s_name_map s_page_tree s_xfa : core.

  Lemma e_file : forall d c, xs (file_extract E rs d c) (file_extract E rs d c).
  Proof. intros. unfold file_extract. ex. Qed.
  Hint Resolve e_file : core.
  Lemma e_action : forall d, xs (action_extract E rs d) (action_extract E rs d).
  Proof. intros. unfold action_extract. ex. Qed.
  Hint Resolve e_action : core.
  Lemma e_action_at : forall d k, xs (action_at E rs d k) (action_at E rs d k).
  Proof. intros. unfold action_at. ex. Qed.
  Hint Resolve e_action_at : core.
  Lemma Forall2_self : forall A (R : A -> A -> Prop) l, Forall (fun x => R x x) l -> Forall2 R l l.
  Proof. intros A R l F. induction F; constructor; auto. Qed.
  Lemma e_any : forall l l', Permutation l l' -> Forall (fun m : X unit => xs m m) l -> xs (xseq l) (xseq l').
  Proof. intros. apply xseq_perm; auto. Qed.
  Lemma e_additional : forall st st' d, xs (additional_actions E OD1 rs st d) (additional_actions E OD2 rs st' d).
  Proof.
    intros st st' d. unfold additional_actions. apply e_bind; [ex |]. intros [aa []]; [| ex]. apply e_any.
    - apply Permutation_map. eapply Permutation_trans; [symmetry; apply (proj1 O1) | apply (proj1 O2)].
    - apply Forall_forall. intros m I. apply in_map_iff in I. destruct I as (k & <- & _). apply e_action_at.
  Qed.
  Lemma e_forms : forall d, xs (forms E rs d) (forms E rs d). Proof. intros. unfold forms. ex. Qed.
  Lemma e_embedded_loop : forall k i l, xs (embedded_loop E rs k i l) (embedded_loop E rs k i l).
  Proof. induction k as [| k IH]; intros; cbn [embedded_loop]; ex. Qed.
  Lemma e_embedded : forall d, xs (embedded_files E rs fuel d) (embedded_files E rs fuel d).
  Proof. intros. unfold embedded_files. ex. apply e_embedded_loop. Qed.
  Lemma e_javascript : forall d, xs (javascript rs d) (javascript rs d). Proof. intros. unfold javascript. ex. Qed.
  Lemma e_uris : forall d, xs (uris rs d) (uris rs d). Proof. intros. unfold uris. ex. Qed.
  Lemma e_urls_loop : forall k i l, xs (urls_loop rs k i l) (urls_loop rs k i l).
  Proof. induction k as [| k IH]; intros; cbn [urls_loop]; ex. Qed.
  Lemma e_urls : forall d, xs (urls_tree rs fuel d) (urls_tree rs fuel d).
  Proof. intros. unfold urls_tree. ex. apply e_urls_loop. Qed.
  Lemma e_contents : forall f g, same_fonts f g -> forall k i a, xs (contents_array E rs fuel k i f a) (contents_array E rs fuel k i g a).
  Proof.
    intros f g H. induction k as [| k IH]; intros i a; cbn [contents_array]; [ex |].
    apply e_bind; [ex |]. intros [c []]; [rewrite (page_text_fonts E f g H) |]; ex.
  Qed.
  Lemma e_page : forall st st' d, xs (page_extract E OD1 rs fuel st d) (page_extract E OD2 rs fuel st' d).
  Proof.
    intros st st' d. unfold page_extract. apply e_bind; [ex |]. intros [r ok]. apply e_bind; [ex |]. intros [fonts ok2].
    eapply xs_bind; [apply xs_lift; [apply Ve |]; apply (s_fonts E rs Hrs); [| intros k; reflexivity]; eapply Permutation_trans; [symmetry; apply (proj1 O1) | apply (proj1 O2)] |].
    intros f g H. apply e_bind; [ex |]. intros [c []]; [rewrite (page_text_fonts E f g H); ex |]. apply e_bind; [ex |]. intros [a []]; [| ex]. apply e_contents. exact H.
  Qed.
  Lemma e_pages : forall st st' l i i', xs (pages_loop E OD1 rs fuel st i l) (pages_loop E OD2 rs fuel st' i' l).
  Proof. intros st st'. induction l as [| d l IH]; intros i i'; cbn [pages_loop]; [ex |]. apply e_bind; [apply e_page |]. intros _. apply IH. Qed.
  Lemma e_page_text : forall st st' d, xs (page_text_of E OD1 rs fuel st d) (page_text_of E OD2 rs fuel st' d).
  Proof. intros. unfold page_text_of. apply e_bind; [ex |]. intros [l []]; [apply e_pages | ex]. Qed.
  Lemma e_here : forall st st' d, xs (extract_here E OD1 rs fuel st d) (extract_here E OD2 rs fuel st' d).
  Proof.
    intros st st' d. unfold extract_here.
    apply e_bind; [apply e_action_at | intros _]. apply e_bind; [apply e_action_at | intros _]. apply e_bind; [apply e_additional | intros _].
    apply e_bind; [apply e_forms | intros _]. apply e_bind; [apply e_embedded | intros _]. apply e_bind; [apply e_javascript | intros _].
    apply e_bind; [apply e_page_text | intros _]. apply e_bind; [apply e_uris | intros _]. apply e_urls.
  Qed.
End Ext.

Section Nested.
  Variable E : env.
  Variable rs : Z -> M iobj.
  Hypothesis Hrs : forall n, same eq (rs n) (rs n).
  Variable fuel : nat.
  Definition go_dict (OD : order) (st : site) := fix go (i : Z) (d : list (bytes * obj)) : list (X unit) :=
    match d with [] => [] | (_, x) :: d' => extract E OD rs fuel (i :: 3 :: st) x :: go (i + 1) d' end.
  Definition go_arr (OD : order) (st : site) := fix go (i : Z) (l : list obj) : list (X unit) :=
    match l with [] => [] | x :: l' => extract E OD rs fuel (i :: 4 :: st) x :: go (i + 1) l' end.
  Definition ok_obj (o : obj) : Prop := forall OD1 OD2 st st', order_ok OD1 -> order_ok OD2 ->
    xsame eq eq (extract E OD1 rs fuel st o) (extract E OD2 rs fuel st' o).
  Lemma go_dict_same : forall OD1 OD2, order_ok OD1 -> order_ok OD2 -> forall st st' d i i', Forall ok_obj (map snd d) ->
    Forall2 (xsame eq eq) (go_dict OD1 st i d) (go_dict OD2 st' i' d).
  Proof.
    intros OD1 OD2 K1 K2 st st'. induction d as [| [k x] d IH]; intros i i' F; cbn [go_dict]; [constructor |]. cbn [map] in F. inversion F; subst.
    constructor; [apply H1; assumption | apply IH; assumption].
  Qed.
  Lemma go_arr_same : forall OD1 OD2, order_ok OD1 -> order_ok OD2 -> forall st st' l i i', Forall ok_obj l ->
    Forall2 (xsame eq eq) (go_arr OD1 st i l) (go_arr OD2 st' i' l).
  Proof.
    intros OD1 OD2 K1 K2 st st'. induction l as [| x l IH]; intros i i' F; cbn [go_arr]; [constructor |]. inversion F; subst.
    constructor; [apply H1; assumption | apply IH; assumption].
  Qed.
  Lemma Forall2_diag : forall A (R : A -> A -> Prop) l, Forall2 R l l -> Forall (fun x => R x x) l.
  Proof. intros A R l F. induction l; [constructor |]. inversion F; subst. constructor; auto. Qed.
  Lemma extract_same : forall o, ok_obj o.
  Proof.
    intros o. induction o as [| | | | | l IH | d IH] using obj_nested_ind; intros OD1 OD2 st st' K1 K2; try (apply xs_ret; reflexivity).
    - change (xsame eq eq (xseq (go_arr OD1 st 0 l)) (xseq (go_arr OD2 st' 0 l))). apply xs_seq; [reflexivity |]. apply go_arr_same; assumption.
    - change (xsame eq eq (xbind (extract_here E OD1 rs fuel st d) (fun _ => xseq (o_map OD1 (2 :: st) (X unit) (go_dict OD1 st 0 d))))
        (xbind (extract_here E OD2 rs fuel st' d) (fun _ => xseq (o_map OD2 (2 :: st') (X unit) (go_dict OD2 st' 0 d))))).
      apply xs_bind_eq; [apply e_here; assumption |]. intros _.
      assert (D : forall OD st, order_ok OD -> Forall (fun m => xsame eq eq m m) (go_dict OD st 0 d)).
      { intros OD st0 K. apply Forall2_diag. apply go_dict_same; assumption. }
      eapply xs_trans; [apply xseq_perm; [symmetry; apply (proj1 K1) |] |].
      + eapply Permutation_Forall; [apply (proj1 K1) | apply D; assumption].
      + eapply xs_trans; [apply xs_seq; [reflexivity | apply (go_dict_same OD1 OD2 K1 K2 st st' d 0 0 IH)] |].
        apply xseq_perm; [apply (proj1 K2) | apply D; assumption].
  Qed.
  Lemma object_same : forall OD1 OD2 st st' o, order_ok OD1 -> order_ok OD2 ->
    xsame eq eq (object_extract E OD1 rs fuel st o) (object_extract E OD2 rs fuel st' o).
  Proof. intros. unfold object_extract. destruct (ival o); try (apply xs_ret; reflexivity). apply extract_same; assumption. Qed.
End Nested.

Section All.
  Variable E : env.
  Variable fuel : nat.
  Variable file : bytes.
  Lemma one_same : forall (V : ev -> ev -> Prop) OD1 OD2 (kv : Z * xentry), (forall e, V e e) -> order_ok OD1 -> order_ok OD2 ->
    (forall o, V (println FRaw (iobj_string E OD1 [1; fst kv] o)) (println FRaw (iobj_string E OD2 [1; fst kv] o))) ->
    xsame V eq (extract_one E OD1 fuel file kv) (extract_one E OD2 fuel file kv).
  Proof.
    intros V OD1 OD2 [n e] VR K1 K2 HV. unfold extract_one. destruct (x_type e =? XrefTypeIndirectObject); [| apply xs_ret; auto].
    apply xs_bind_eq; [apply xs_lift; [exact VR | apply same_lift] |]. intros _.
    apply xs_bind_eq; [apply xs_lift; [exact VR | apply get_object_same] |]. intros o.
    apply xs_bind_eq; [apply xs_weaken; [exact VR | apply object_same; [apply Resolve_same | assumption | assumption]] |]. intros _.
    apply xs_out. eexists. split; [reflexivity |]. constructor; [apply HV | constructor].
  Qed.
  Lemma all_seq : forall OD l p, extract_all E OD fuel file l p = xseq (map (extract_one E OD fuel file) l) p.
  Proof. intros OD. induction l as [| kv l IH]; intros p; [reflexivity |]. cbn [extract_all map xseq]. apply xbind_cong; [reflexivity |]. intros _ q. apply IH. Qed.
  Lemma all_same : forall OD1 OD2 l l', order_ok OD1 -> order_ok OD2 -> Permutation l l' ->
    xsame (same_write (e_fmt E)) eq (extract_all E OD1 fuel file l) (extract_all E OD2 fuel file l').
  Proof.
    intros OD1 OD2 l l' K1 K2 P p q CO. rewrite !all_seq.
    assert (H : xsame (same_write (e_fmt E)) eq (xseq (map (extract_one E OD1 fuel file) l)) (xseq (map (extract_one E OD2 fuel file) l'))); [| exact (H p q CO)].
    eapply xs_trans; [apply xseq_perm; [apply Permutation_map; exact P |] |].
    - apply Forall_forall. intros m I. apply in_map_iff in I. destruct I as (kv & <- & _). apply one_same; auto.
    - apply xs_seq; [apply sw_equal |]. clear P. induction l' as [| kv l' IH]; cbn [map]; [constructor |]. constructor; [| exact IH].
      apply one_same; [apply sw_equal | assumption | assumption |]. intros o. unfold println. eapply sw_raw; apply iobj_string_written; assumption.
  Qed.
End All.

(** ** Loading *)
(** repairing an entry whose offset is in the file *)
Definition mended (file : bytes) (num : Z) (object e : xentry) : xentry :=
  let h := fst (read_object_header (seek file (x_off e) (open_rd file))) in
  if snd h || negb (fst (fst h) =? num) then set_off (x_off object) e else e.
Lemma header_anywhere : forall file off s t, 0 <= off ->
  fst (read_object_header (seek file off s)) = fst (read_object_header (seek file off t)).
Proof.
  intros file off s t H. exact (proj1 (read_object_header_rel file _ (same_respects file (log s) (log t)) _ _ (seek_same file off s t H))).
Qed.
Lemma header_log : forall s, log (snd (read_object_header s)) = log s.
Proof.
  intros s. apply (read_object_header_keeps (fun t => log t = log s)); [| | reflexivity].
  - intros t <-. unfold read_byte. destruct (rest t); reflexivity.
  - intros t <-. unfold unread_byte. destruct (last t); reflexivity.
Qed.
Lemma mend_one : forall file num object p, (forall e, xget num (pxref p) = Some e -> 0 <= x_off e) -> exists p',
  repair_one file (num, object) p = Ok (tt, p') /\ ptrailer p' = ptrailer p /\ psh p' = psh p /\ log (prd p') = log (prd p) /\
  (forall n, n <> num -> xget n (pxref p') = xget n (pxref p)) /\
  xget num (pxref p') = Some (match xget num (pxref p) with None => object | Some e => mended file num object e end).
Proof.
  intros file num object p O. unfold repair_one. destruct (xget num (pxref p)) as [e |] eqn:X.
  - unfold bind, pseek, onrd, put_xref, ret. cbn [prd with_rd]. unfold mended. rewrite (header_anywhere file (x_off e) (open_rd file) (prd p) (O e eq_refl)).
    pose proof (header_log (seek file (x_off e) (prd p))) as L. rewrite seek_log in L.
    destruct (read_object_header (seek file (x_off e) (prd p))) as [[[n g] ok] s1]. cbn [fst snd] in *.
    destruct (ok || negb (n =? num)); eexists; (split; [reflexivity |]); cbn [pxref with_xref with_rd prd ptrailer psh].
    + split; [reflexivity |]. split; [reflexivity |]. split; [exact L |]. split; [intros m N; apply xget_xset_other; assumption | apply xget_xset].
    + split; [reflexivity |]. split; [reflexivity |]. split; [exact L |]. split; [reflexivity | exact X].
  - eexists. split; [reflexivity |]. cbn [pxref with_xref prd ptrailer psh]. split; [reflexivity |]. split; [reflexivity |]. split; [reflexivity |].
    split; [intros n N; apply xget_xset_other; assumption | apply xget_xset].
Qed.
Lemma mend_all : forall file l p, NoDup (map fst l) -> (forall n e, In n (map fst l) -> xget n (pxref p) = Some e -> 0 <= x_off e) -> exists p',
  repair file l p = Ok (tt, p') /\ ptrailer p' = ptrailer p /\ psh p' = psh p /\ log (prd p') = log (prd p) /\
  forall n, xget n (pxref p') = match xget n l, xget n (pxref p) with
    | None, a => a | Some s, None => Some s | Some s, Some e => Some (mended file n s e) end.
Proof.
  intros file. induction l as [| [num object] l IH]; intros p ND O.
  - exists p. split; [reflexivity |]. split; [reflexivity |]. split; [reflexivity |]. split; [reflexivity |]. intros n. reflexivity.
  - inversion ND as [| ? ? NI ND']; subst. cbn [repair]. unfold bind.
    assert (NL : xget num l = None) by (apply (mget_None Z.eqb Zeqb_ok); assumption).
    destruct (mend_one file num object p) as (p1 & -> & T1 & S1 & L1 & X1 & Y1); [intros e; apply O; left; reflexivity |].
    destruct (IH p1 ND') as (p2 & -> & T2 & S2 & L2 & X2).
    { intros n e I H. apply (O n e); [right; exact I |]. rewrite <- X1; [exact H |]. intros ->. contradiction. }
    exists p2. split; [reflexivity |]. split; [congruence |]. split; [congruence |]. split; [congruence |]. intros n. rewrite X2.
    assert (G : xget n ((num, object) :: l) = if n =? num then Some object else xget n l) by reflexivity. rewrite G. destruct (Z.eq_dec n num) as [-> | D].
    + rewrite Z.eqb_refl, NL, Y1. destruct (xget num (pxref p)); reflexivity.
    + rewrite X1 by assumption. destruct (n =? num) eqn:Q2; [apply Z.eqb_eq in Q2; congruence |]. reflexivity.
Qed.

(** computations at the end of which the security handler may have changed *)
Definition same_end {A} (m m' : M A) : Prop := forall p q, corr p q ->
  match m p, m' q with
  | Ok (a, p'), Ok (b, q') => a = b /\ pxref p' = pxref p /\ pxref q' = pxref q /\ psh p' = psh q' /\ logged p p' q q'
  | Ok _, _ | _, Ok _ => False
  | _, _ => True
  end.
Lemma end_same : forall A (m m' : M A), same eq m m' -> same_end m m'.
Proof.
  intros A m m' H p q C. specialize (H p q C). unfold same_res in H. destruct (m p) as [[a p']| |], (m' q) as [[b q']| |]; try exact H.
  destruct H as (R & [N1 N2] & [N3 N4] & L). split; [exact R |]. split; [assumption |]. split; [assumption |]. split; [| exact L]. pose proof (co_sh _ _ C). congruence.
Qed.
Lemma end_bind : forall A B (m : M A) (k k' : A -> M B), same eq m m -> (forall a, same_end (k a) (k' a)) -> same_end (bind m k) (bind m k').
Proof.
  intros A B m k k' Hm Hk p q C. unfold bind. specialize (Hm p q C). unfold same_res in Hm.
  destruct (m p) as [[a p1]| |], (m q) as [[a' q1]| |]; try exact Hm; try (destruct Hm; fail).
  destruct Hm as (<- & N1 & N2 & L). specialize (Hk a p1 q1 (corr_next _ _ _ _ C N1 N2)).
  destruct (k a p1) as [[b p2]| |], (k' a q1) as [[b' q2]| |]; try exact Hk.
  destruct Hk as (H2 & X1 & X2 & S2 & L2). split; [assumption |]. destruct N1, N2. split; [congruence |]. split; [congruence |]. split; [assumption | eapply logged_trans; eassumption].
Qed.
Ltac en := repeat match goal with
  | |- same_end (ret _) (ret _) => apply end_same, same_ret; reflexivity
  | |- same_end (bind _ _) (bind _ _) => apply end_bind; [|intros]
  | |- same_end (let '(_, _) := ?x in _) _ => destruct x
  | |- same_end (if ?b then _ else _) _ => destruct b
  | |- forall _, _ => intro
  end; sm; auto.
Lemma load_cf_same : forall E rs, (forall n, same eq (rs n) (rs n)) -> forall ep pw len cf fs, same eq (load_cf E rs ep pw len cf fs) (load_cf E rs ep pw len cf fs).
Proof.
  intros E rs H ep pw len. pose proof (s_name rs H). pose proof (s_int rs H). induction cf as [| [k v] cf IH]; intros fs; cbn [load_cf]; [sm |]. destruct v; sm.
Qed.
Lemma init_same : forall E rs pw t, (forall n, same eq (rs n) (rs n)) -> same_end (init_security E rs pw t) (init_security E rs pw t).
Proof.
  intros E rs pw t H. unfold init_security.
  pose proof (s_name rs H). pose proof (s_int rs H). pose proof (s_dict rs H). pose proof (s_string rs H). pose proof (s_bool rs H). pose proof (s_array rs H).
  pose proof (sa_string rs H). pose proof (load_cf_same E rs H).
  assert (forall e k fs d, same eq (override rs e k fs d) (override rs e k fs d)) by (intros; unfold override; sm).
  en. intros p q C. split; [reflexivity |]. split; [reflexivity |]. split; [reflexivity |]. split; [reflexivity |].
  exists [], []. rewrite !app_nil_r. auto.
Qed.
Lemma exempt_same_table : forall en p q, same_table (pxref p) (pxref q) -> exists p' q',
  exempt_encrypt en p = Ok (tt, p') /\ exempt_encrypt en q = Ok (tt, q') /\ same_table (pxref p') (pxref q') /\
  (psh p' = psh p /\ ptrailer p' = ptrailer p /\ prd p' = prd p) /\ (psh q' = psh q /\ ptrailer q' = ptrailer q /\ prd q' = prd q) /\
  (offsets_inside (pxref p) -> offsets_inside (pxref p')).
Proof.
  intros en p q H. unfold exempt_encrypt. destruct en; try (exists p, q; auto 10; fail).
  pose proof (H n) as Hn. rewrite Hn. destruct (xget n (pxref q)) as [e |] eqn:X; [| exists p, q; auto 10].
  eexists. eexists. split; [reflexivity |]. split; [reflexivity |]. cbn [pxref with_xref psh ptrailer prd]. split; [| split; [auto | split; [auto |]]].
  - intros m. destruct (Z.eq_dec m n) as [-> | D]; [rewrite !xget_xset; reflexivity | rewrite !xget_xset_other by assumption; apply H].
  - intros O m e'. destruct (Z.eq_dec m n) as [-> | D]; [rewrite xget_xset | rewrite xget_xset_other by assumption; apply O].
    intros Q. injection Q as <-. cbn [x_off]. apply (O n e). rewrite Hn. reflexivity.
Qed.
Lemma table_perm : forall x y : xmap, NoDup (map fst x) -> NoDup (map fst y) -> same_table x y -> Permutation x y.
Proof.
  intros x y NX NY H. apply NoDup_Permutation; [eapply NoDup_map_inv; exact NX | eapply NoDup_map_inv; exact NY |].
  intros [n e]. split; intros I.
  - apply (BaseP.mget_In Z.eqb Zeqb_ok). change (xget n y = Some e). rewrite <- H. apply (In_mget Z.eqb Zeqb_ok); assumption.
  - apply (BaseP.mget_In Z.eqb Zeqb_ok). change (xget n x = Some e). rewrite H. apply (In_mget Z.eqb Zeqb_ok); assumption.
Qed.

Lemma load_same : forall fuel E file pw ord1 ord2, (2 <= fuel)%nat -> (forall x, Permutation x (ord1 x)) -> (forall x, Permutation x (ord2 x)) ->
  (forall x, sections_table fuel E file x -> offsets_inside x) ->
  match load fuel E ord1 file pw (new_parser file), load fuel E ord2 file pw (new_parser file) with
  | Ok (a, p), Ok (b, q) => a = b /\ corr p q /\ Permutation (pxref p) (pxref q) /\ Permutation (log (prd p)) (log (prd q))
  | Ok _, _ | _, Ok _ => False
  | _, _ => True
  end.
Proof.
  intros fuel E file pw ord1 ord2 F P1 P2 O.
  assert (TD : forall ord a p, load fuel E ord file pw (new_parser file) = Ok (a, p) -> NoDup (map fst (pxref p))).
  { intros ord a p H. eapply (tidy_load file fuel E ord pw); [| exact H]. split; [apply open_wf | constructor]. }
  pose proof (TD ord1) as N1. pose proof (TD ord2) as N2. clear TD. revert N1 N2. unfold load, bind.
  destruct (find_objects_records E file (new_parser file) fuel (open_wf file) eq_refl F) as (l & objs & p0 & F1 & SC & RC & W0 & X0 & T0 & S0 & ND). rewrite F1.
  destruct (pseek file (zlen file) p0) as [[[] p1]| |] eqn:F2; [| auto | auto].
  destruct (load_all fuel E file (xref_offsets file objs) p1) as [[[] p2]| |] eqn:F3; [| auto | auto].
  assert (O2 : offsets_inside (pxref p2)). { apply O. exists objs, p0, p1, p2. auto. }
  assert (OB : offsets_inside objs).
  { intros n e H. specialize (RC n). rewrite H in RC. destruct RC as (l1 & i & j & l2 & -> & ME & _). rewrite (me_off _ _ _ _ ME).
    apply (scan_starts _ _ _ _ i j SC). apply in_or_app. right. left. reflexivity. }
  assert (R : forall ord, (forall x, Permutation x (ord x)) -> exists p', repair file (ord objs) p2 = Ok (tt, p') /\ ptrailer p' = ptrailer p2 /\ psh p' = psh p2 /\
    log (prd p') = log (prd p2) /\ forall n, xget n (pxref p') = match xget n objs, xget n (pxref p2) with
    | None, a => a | Some s, None => Some s | Some s, Some e => Some (mended file n s e) end).
  { intros ord P. destruct (mend_all file (ord objs) p2) as (p' & R & T & S & L & X).
    - eapply Permutation_NoDup; [apply Permutation_map, P | exact ND].
    - intros n e _. apply O2.
    - exists p'. split; [exact R |]. split; [exact T |]. split; [exact S |]. split; [exact L |]. intros n. rewrite X.
      rewrite (perm_xget (ord objs) objs (Permutation_sym (P objs)) ND). reflexivity. }
  destruct (R ord1 P1) as (p & -> & TP & SP & LP & XP). destruct (R ord2 P2) as (q & -> & TQ & SQ & LQ & XQ). clear R.
  assert (ST : same_table (pxref p) (pxref q)) by (intros n; rewrite XP, XQ; reflexivity).
  assert (OP : offsets_inside (pxref p)).
  { intros n e. rewrite XP. destruct (xget n objs) as [s |] eqn:Qs; [| apply O2]. destruct (xget n (pxref p2)) as [e2 |] eqn:Q2.
    - intros Q. injection Q as <-. unfold mended. destruct (_ || _); [exact (OB n s Qs) | exact (O2 n e2 Q2)].
    - intros Q. injection Q as <-. exact (OB n s Qs). }
  rewrite TP, TQ. destruct (dget (lit "Encrypt") (ptrailer p2)) as [enc |].
  - destruct (exempt_same_table enc p q ST) as (p' & q' & -> & -> & ST' & (SP' & TP' & RP') & (SQ' & TQ' & RQ') & O').
    assert (CO : corr p' q'). { split; [exact ST' | congruence |]. intros n e H _. exact (O' OP n e H). }
    unfold set_password. rewrite TP', TQ', TP, TQ. intros N1 N2.
    pose proof (init_same E (Resolve fuel E file) pw (ptrailer p2) (Resolve_same fuel E file) p' q' CO) as I.
    destruct (init_security _ _ _ _ p') as [[a p3]| |], (init_security _ _ _ _ q') as [[b q3]| |]; try exact I.
    destruct I as (-> & X3 & X4 & S34 & (ms & ms' & L1 & L2 & L3)). split; [reflexivity |]. split; [| split].
    + split; [rewrite X3, X4; exact ST' | exact S34 | rewrite X3; apply (co_ok _ _ CO)].
    + apply table_perm; [eapply N1; reflexivity | eapply N2; reflexivity | rewrite X3, X4; exact ST'].
    + rewrite L1, L2, RP', RQ', LP, LQ. apply Permutation_app_head. exact L3.
  - intros N1 N2. split; [reflexivity |]. split; [| split].
    + split; [exact ST | congruence |]. intros n e H _. exact (OP n e H).
    + apply table_perm; [eapply N1; reflexivity | eapply N2; reflexivity | exact ST].
    + rewrite LP, LQ. reflexivity.
Qed.

(** ** Parse *)
Lemma perm_flat_map : forall A B (f : A -> list B) l l', Permutation l l' -> Permutation (flat_map f l) (flat_map f l').
Proof. intros A B f l l' P. apply Permutation_flat_map. exact P. Qed.
Lemma same_writes_files : forall fmt w w', same_writes fmt w w' ->
  (forall f, f <> FRaw -> Permutation (written_to f w) (written_to f w')) /\ Permutation (dumped w) (dumped w') /\
  List.length (written_to FRaw w) = List.length (written_to FRaw w').
Proof.
  intros fmt w w' (u & P & F). split; [| split].
  - intros f N. apply (perm_flat_map _ _ (fun e => match e with EWrite g b => if ofile_eqb f g then [b] else [] | _ => [] end)) in P.
    eapply Permutation_trans; [exact P |]. enough (Q : written_to f u = written_to f w') by (rewrite <- Q; reflexivity). clear P.
    induction F as [| e e' u w' H F IH]; [reflexivity |]. cbn [written_to flat_map]. fold (written_to f u) (written_to f w'). rewrite IH. f_equal.
    destruct H; [reflexivity |]. destruct f; try reflexivity. congruence.
  - apply (perm_flat_map _ _ (fun e => match e with EDump n d => [(n, d)] | _ => [] end)) in P.
    eapply Permutation_trans; [exact P |]. enough (Q : dumped u = dumped w') by (rewrite <- Q; reflexivity). clear P.
    induction F as [| e e' u w' H F IH]; [reflexivity |]. cbn [dumped flat_map]. fold (dumped u) (dumped w'). rewrite IH. destruct H; reflexivity.
  - apply (perm_flat_map _ _ (fun e => match e with EWrite g b => if ofile_eqb FRaw g then [b] else [] | _ => [] end)) in P.
    apply Permutation_length in P. unfold written_to at 1. rewrite P. clear P.
    induction F as [| e e' u w' H F IH]; [reflexivity |]. cbn [written_to flat_map]. fold (written_to FRaw u) (written_to FRaw w'). rewrite !app_length. unfold written_to in *. rewrite IH.
    destruct H; reflexivity.
Qed.
Lemma body_same : forall E OD1 OD2 fuel file pw, (2 <= fuel)%nat -> order_ok OD1 -> order_ok OD2 ->
  (forall x, sections_table fuel E file x -> offsets_inside x) ->
  match parse_body E OD1 fuel file pw (new_parser file), parse_body E OD2 fuel file pw (new_parser file) with
  | (w, Ok (a, p)), (w', Ok (b, q)) => a = b /\ same_writes (e_fmt E) w w' /\ Permutation (log (prd p)) (log (prd q))
  | (_, Ok _), _ | _, (_, Ok _) => False
  | _, _ => True
  end.
Proof.
  intros E OD1 OD2 fuel file pw F K1 K2 O. unfold parse_body, xbind, xlift, lift. destruct (debug E) as [[]| |]; [| exact I | exact I].
  pose proof (load_same fuel E file pw (o_objects OD1) (o_objects OD2) F (proj1 (proj2 K1)) (proj1 (proj2 K2)) O) as L.
  destruct (load fuel E (o_objects OD1) file pw (new_parser file)) as [[a p]| |], (load fuel E (o_objects OD2) file pw (new_parser file)) as [[b q]| |]; try exact L; try (exfalso; exact L).
  destruct L as (<- & CO & PX & PL).
  destruct a as [e |].
  - cbn. split; [reflexivity |]. split; [| exact PL]. exists []. split; constructor.
  - pose proof (all_same E fuel file OD1 OD2 (o_xref OD1 (pxref p)) (o_xref OD2 (pxref q)) K1 K2) as A.
    assert (PP : Permutation (o_xref OD1 (pxref p)) (o_xref OD2 (pxref q))).
    { eapply Permutation_trans; [symmetry; apply (proj2 (proj2 K1)) |]. eapply Permutation_trans; [exact PX | apply (proj2 (proj2 K2))]. }
    specialize (A PP p q CO). unfold xsame_res in A.
    destruct (extract_all E OD1 fuel file _ p) as [w [[[] p']| |]], (extract_all E OD2 fuel file _ q) as [w' [[[] q']| |]]; cbn; try exact A.
    rewrite !app_nil_r. destruct A as (_ & MW & _ & _ & (ms & ms' & L1 & L2 & L3)). split; [reflexivity |]. split; [exact MW |].
    rewrite L1, L2. apply Permutation_app; assumption.
Qed.
Lemma writes_app : forall a b, writes (a ++ b) = writes a ++ writes b.
Proof. intros. unfold writes. apply flat_map_app. Qed.
Lemma writes_evs : forall w, writes (map OpEv w) = w.
Proof. induction w as [| e w IH]; [reflexivity |]. cbn. f_equal. exact IH. Qed.
Lemma others_evs : forall w, others (map OpEv w) = [].
Proof. induction w as [| e w IH]; [reflexivity | exact IH]. Qed.
Lemma same_writes_refl : forall fmt w, same_writes fmt w w.
Proof. intros fmt w. exists w. split; [reflexivity |]. induction w; constructor; [constructor | assumption]. Qed.
Lemma same_writes_frame : forall fmt a w w' b, same_writes fmt w w' -> same_writes fmt (a ++ w ++ b) (a ++ w' ++ b).
Proof.
  intros fmt a w w' b (u & P & F). exists (a ++ u ++ b). split; [apply Permutation_app_head, Permutation_app_tail, P |].
  assert (R : forall l, Forall2 (same_write fmt) l l) by (induction l; constructor; [constructor | assumption]).
  apply Forall2_app; [apply R |]. apply Forall2_app; [exact F | apply R].
Qed.
Lemma parse_same : forall E OD1 OD2 fuel S pw ops1 r, (2 <= fuel)%nat -> order_ok OD1 -> order_ok OD2 ->
  (forall file x, s_input S = Some file -> sections_table fuel E file x -> offsets_inside x) ->
  parse E OD1 fuel S pw = (ops1, Ok r) ->
  exists ops2, parse E OD2 fuel S pw = (ops2, Ok r) /\ same_writes (e_fmt E) (writes ops1) (writes ops2) /\ others ops1 = others ops2.
Proof.
  intros E OD1 OD2 fuel S pw ops1 r F K1 K2 O H. unfold parse in *. destruct (s_input S) as [file |] eqn:SI.
  2: { injection H as <- <-. exists []. auto using same_writes_refl. }
  destruct (new_output S) as [[ops opened] ok]. destruct ok.
  2: { injection H as <- <-. eexists. split; [reflexivity |]. auto using same_writes_refl. }
  pose proof (body_same E OD1 OD2 fuel file pw F K1 K2 (fun x => O file x eq_refl)) as B.
  destruct (parse_body E OD1 fuel file pw (new_parser file)) as [w [[a p]| |]]; [| discriminate | discriminate].
  destruct (parse_body E OD2 fuel file pw (new_parser file)) as [w' [[b q]| |]]; try (exfalso; exact B). destruct B as (<- & SW & _).
  assert (G : ops1 = ops ++ map OpEv w ++ close_output opened /\ r = match a with Some e => PEnc e | None => PNone end) by (destruct a; injection H as <- <-; auto).
  destruct G as [-> ->]. exists (ops ++ map OpEv w' ++ close_output opened). split; [destruct a; reflexivity |]. split.
  - rewrite !writes_app, !writes_evs. apply same_writes_frame, SW.
  - unfold others. rewrite !filter_app. fold (others (map OpEv w)) (others (map OpEv w')). rewrite !others_evs. reflexivity.
Qed.
Lemma messages_same : forall E OD1 OD2 fuel file pw w1 r p1, (2 <= fuel)%nat -> order_ok OD1 -> order_ok OD2 ->
  (forall x, sections_table fuel E file x -> offsets_inside x) ->
  parse_body E OD1 fuel file pw (new_parser file) = (w1, Ok (r, p1)) ->
  exists w2 p2, parse_body E OD2 fuel file pw (new_parser file) = (w2, Ok (r, p2)) /\ Permutation (log (prd p1)) (log (prd p2)).
Proof.
  intros E OD1 OD2 fuel file pw w1 r p1 F K1 K2 O H. pose proof (body_same E OD1 OD2 fuel file pw F K1 K2 O) as B. rewrite H in B.
  destruct (parse_body E OD2 fuel file pw (new_parser file)) as [w' [[b q]| |]]; try (exfalso; exact B). destruct B as (<- & _ & L). eauto.
Qed.
Lemma files_same : forall E OD1 OD2 fuel S pw ops1 r, (2 <= fuel)%nat -> order_ok OD1 -> order_ok OD2 ->
  (forall file x, s_input S = Some file -> sections_table fuel E file x -> offsets_inside x) ->
  parse E OD1 fuel S pw = (ops1, Ok r) ->
  exists ops2, parse E OD2 fuel S pw = (ops2, Ok r) /\ (forall f, f <> FRaw -> Permutation (written_to f (writes ops1)) (written_to f (writes ops2))) /\
    Permutation (dumped (writes ops1)) (dumped (writes ops2)) /\ List.length (written_to FRaw (writes ops1)) = List.length (written_to FRaw (writes ops2)).
Proof.
  intros E OD1 OD2 fuel S pw ops1 r F K1 K2 O H. destruct (parse_same E OD1 OD2 fuel S pw ops1 r F K1 K2 O H) as (ops2 & P & W & _).
  exists ops2. split; [exact P |]. apply (same_writes_files (e_fmt E)), W.
Qed.
