(** LookP.v -- getters on the real Resolve, in terms of SpecLook. *)
From Verif Require Import Base BaseP Msg Reader ReaderP Num Lexer Obj ReadObj Env Getters Crypt GetObj RelP GetObjP SpecRead SpecFetch FetchP SpecLook.
From Coq Require Import Strings.String.
Local Open Scope m_scope.

Lemma kept_refl : forall file p, reads file p -> kept file p p.
Proof. intros. split; auto. Qed.
Lemma kept_trans : forall file p q r, kept file p q -> kept file q r -> kept file p r.
Proof. intros file p q r (A & B & C & D) (A' & B' & C' & D'). split; [assumption |]. repeat split; congruence. Qed.
Lemma stays_kept : forall file p q, stays file p q -> kept file p q.
Proof. intros file p q (A & _ & _ & B & C & D). split; auto. Qed.
Lemma kept_alike : forall file p q, kept file p q -> alike p q.
Proof. intros file p q (A & B & C & D). split; congruence. Qed.

(** ** Resolve does not depend on the history *)
Lemma resolve_history : forall fuel E file n seen p q, reads file p -> reads file q -> alike p q -> offsets_ok (pxref p) ->
  match resolve fuel E file n seen p, resolve fuel E file n seen q with
  | Ok (o1, p'), Ok (o2, q') => o1 = o2
  | Panic, Panic => True
  | OutOfFuel, OutOfFuel => True
  | _, _ => False
  end.
Proof.
  induction fuel as [| f IH]; intros E file n seen p q Wp Wq A O; [exact I |]. cbn [resolve].
  destruct (zmem n seen); [reflexivity |]. unfold bind.
  pose proof (get_object_history f E file n p q A (fun e => O n e)) as G.
  destruct (get_object f E file n p) as [[o1 p1]| |] eqn:Gp, (get_object f E file n q) as [[o2 q1]| |] eqn:Gq; try (exact I); try (destruct G; fail); try contradiction.
  destruct G as [<- _].
  destruct (get_object_keeps _ _ _ _ _ _ _ Wp Gp) as [Wp1 [X1 _ S1]].
  destruct (get_object_keeps _ _ _ _ _ _ _ Wq Gq) as [Wq1 [X2 _ S2]]. destruct A as [A1 A2].
  destruct (ival o1); try reflexivity. apply IH; auto; [split; congruence | rewrite <- X1; assumption].
Qed.
Lemma Resolve_history : forall fuel E file n p q, reads file p -> kept file p q -> offsets_ok (pxref p) ->
  match Resolve fuel E file n p, Resolve fuel E file n q with
  | Ok (o1, p'), Ok (o2, q') => o1 = o2 /\ kept file p p' /\ kept file p q'
  | Panic, Panic => True
  | OutOfFuel, OutOfFuel => True
  | _, _ => False
  end.
Proof.
  intros fuel E file n p q W K O. pose proof (proj1 K) as Wq.
  pose proof (resolve_history fuel E file n [] p q W Wq (kept_alike _ _ _ K) O) as H.
  destruct (Resolve fuel E file n p) as [[o1 p']| |] eqn:Rp, (Resolve fuel E file n q) as [[o2 q']| |] eqn:Rq;
    pose proof Rp as Rp'; pose proof Rq as Rq'; unfold Resolve, restoring, bind in Rp', Rq';
    destruct (resolve fuel E file n [] p) as [[a b]| |], (resolve fuel E file n [] q) as [[c d]| |];
    try discriminate; try tauto.
  unfold pseek, ret in Rp', Rq'. split; [congruence |]. split.
  - apply stays_kept. eapply Resolve_stays; eauto.
  - eapply kept_trans; [exact K |]. apply stays_kept. eapply Resolve_stays; eauto.
Qed.

Lemma target_det : forall E file p n o o', target E file p n o -> target E file p n o' -> o = o'.
Proof.
  intros E file p n o o' (f & p1 & H) (f' & p2 & H').
  apply (Resolve_mono _ (f + f')) in H; [| lia]. apply (Resolve_mono _ (f + f')) in H'; [| lia]. congruence.
Qed.
Lemma value_det : forall E file p x y z, value E file p x y -> value E file p x z -> y = z.
Proof.
  intros E file p x y z H H'. destruct H as [| x D | n g o T]; inversion H'; subst; try reflexivity; try (exfalso; eapply D; reflexivity).
  - match goal with H : forall n g, ORef _ _ <> ORef n g |- _ => exfalso; eapply H; reflexivity end.
  - f_equal. f_equal. eapply target_det; eauto.
Qed.

(** ** Computations that work out, given enough fuel, from every state like [p] *)
Definition gives {A} (file : bytes) (p : pst) (m : nat -> M A) (a : A) (post : pst -> Prop) : Prop :=
  exists f0, forall f q, (f0 <= f)%nat -> kept file p q -> exists q', m f q = Ok (a, q') /\ post q'.
(** ... and what is known when one of them has returned *)
Definition got {A} (file : bytes) (p : pst) (m : M A) (Q : A -> pst -> Prop) : Prop :=
  forall q a q', kept file p q -> m q = Ok (a, q') -> Q a q'.

Lemma gives_ret : forall A file p (a : A), gives file p (fun _ => ret a) a (kept file p).
Proof. intros. exists O. intros f q _ K. exists q. split; [reflexivity | assumption]. Qed.
Lemma gives_bind : forall A B file p (m : nat -> M A) (k : nat -> A -> M B) a b post,
  gives file p m a (kept file p) -> gives file p (fun f => k f a) b post -> gives file p (fun f => bind (m f) (k f)) b post.
Proof.
  intros A B file p m k a b post (f1 & H1) (f2 & H2). exists (Nat.max f1 f2). intros f q L K.
  destruct (H1 f q) as (q1 & E1 & K1); [lia | assumption |]. destruct (H2 f q1) as (q2 & E2 & K2); [lia | assumption |].
  exists q2. unfold bind. rewrite E1. split; assumption.
Qed.
Lemma gives_lift : forall A file p (x : res A) a, x = Ok a -> gives file p (fun _ => lift x) a (kept file p).
Proof. intros A file p x a ->. exists O. intros f q _ K. exists q. split; [reflexivity | assumption]. Qed.
Lemma gives_ext : forall A file p (m m' : nat -> M A) a post, (forall f q, m f q = m' f q) -> gives file p m a post -> gives file p m' a post.
Proof. intros A file p m m' a post H (f0 & G). exists f0. intros f q L K. rewrite <- H. auto. Qed.

Lemma got_ret : forall A file p (a : A) (Q : A -> pst -> Prop), (forall q, kept file p q -> Q a q) -> got file p (ret a) Q.
Proof. intros A file p a Q H q b q' K R. unfold ret in R. assert (b = a) by congruence. assert (q' = q) by congruence. subst. auto. Qed.
Lemma got_bind : forall A B file p (m : M A) (k : A -> M B) (Q : A -> Prop) (Q' : B -> pst -> Prop),
  got file p m (fun a q => Q a /\ kept file p q) -> (forall a, Q a -> got file p (k a) Q') -> got file p (bind m k) Q'.
Proof.
  intros A B file p m k Q Q' Hm Hk q b q' K H. unfold bind in H. destruct (m q) as [[a q1]| |] eqn:E; try discriminate.
  destruct (Hm q a q1 K E) as [HQ K1]. exact (Hk a HQ q1 b q' K1 H).
Qed.
Lemma got_lift : forall A file p (x : res A) (Q : A -> pst -> Prop), (forall a q, kept file p q -> x = Ok a -> Q a q) -> got file p (lift x) Q.
Proof. intros A file p x Q H q a q' K R. unfold lift in R. destruct x; try discriminate. assert (a0 = a) by congruence. assert (q' = q) by congruence. subst. auto. Qed.
Lemma got_weaken : forall A file p (m : M A) (Q Q' : A -> pst -> Prop), got file p m Q -> (forall a q, Q a q -> Q' a q) -> got file p m Q'.
Proof. intros A file p m Q Q' H W q a q' K E. apply W. exact (H q a q' K E). Qed.

(** ** The getters *)
Section Look.
  Variables (E : env) (file : bytes) (p : pst).
  Hypothesis W : reads file p.
  Hypothesis O : offsets_ok (pxref p).

  Lemma target_gives : forall n o, target E file p n o -> gives file p (fun f => Resolve f E file n) o (kept file p).
  Proof.
    intros n o (f0 & p1 & H). exists f0. intros f q L K. apply (Resolve_mono _ f) in H; [| assumption].
    pose proof (Resolve_history f E file n p q W K O) as G. rewrite H in G.
    destruct (Resolve f E file n q) as [[o2 q']| |]; try tauto. destruct G as (-> & _ & K'). eauto.
  Qed.
  Lemma target_got : forall f n, got file p (Resolve f E file n) (fun o q => target E file p n o /\ kept file p q).
  Proof.
    intros f n q o q' K H. pose proof (Resolve_history f E file n p q W K O) as G. rewrite H in G.
    destruct (Resolve f E file n p) as [[o1 p']| |] eqn:R; try tauto. destruct G as (-> & _ & K').
    split; [| assumption]. exists f, p'. assumption.
  Qed.

  Definition found (x : option obj) : obj * bool := match x with Some v => (v, true) | None => (OKw (lit "null"), false) end.

  Lemma entry_gives : forall x y, value E file p x y ->
    gives file p (fun f => match x with Some (ORef n _) => o <- Resolve f E file n ;; ret (ival o, true) | Some o => ret (o, true) | None => ret (KEYWORD_NULL, false) end)
      (found y) (kept file p).
  Proof.
    intros x y H. destruct H as [| x D | n g o T].
    - apply gives_ret.
    - destruct x; try apply gives_ret. exfalso. eapply D. reflexivity.
    - eapply gives_bind; [apply target_gives; exact T |]. apply gives_ret.
  Qed.
  Lemma entry_got : forall f x,
    got file p (match x with Some (ORef n _) => o <- Resolve f E file n ;; ret (ival o, true) | Some o => ret (o, true) | None => ret (KEYWORD_NULL, false) end)
      (fun r q => (exists y, value E file p x y /\ r = found y) /\ kept file p q).
  Proof.
    intros f x. destruct x as [x |]; [| apply got_ret; intros; split; [exists None; split; [constructor | reflexivity] | assumption]].
    destruct x; try (apply got_ret; intros; split; [eexists (Some _); split; [apply v_direct; discriminate | reflexivity] | assumption]).
    eapply got_bind; [apply target_got |]. intros o T. apply got_ret. intros q K. split; [| assumption].
    exists (Some (ival o)). split; [apply v_ref; assumption | reflexivity].
  Qed.

  Lemma d_object_gives : forall d k y, value E file p (entry d k) y -> gives file p (fun f => d_object (Resolve f E file) d k) (found y) (kept file p).
  Proof. intros d k y H. unfold d_object. rewrite dget_entry. apply entry_gives. assumption. Qed.
  Lemma a_object_gives : forall d k y, value E file p (element d k) y -> gives file p (fun f => a_object (Resolve f E file) d k) (found y) (kept file p).
  Proof. intros d k y H. unfold a_object. rewrite zget_element. apply entry_gives. assumption. Qed.
  Lemma d_object_got : forall f d k, got file p (d_object (Resolve f E file) d k)
    (fun r q => (exists y, value E file p (entry d k) y /\ r = found y) /\ kept file p q).
  Proof. intros f d k. unfold d_object. rewrite dget_entry. apply entry_got. Qed.
  Lemma a_object_got : forall f d k, got file p (a_object (Resolve f E file) d k)
    (fun r q => (exists y, value E file p (element d k) y /\ r = found y) /\ kept file p q).
  Proof. intros f d k. unfold a_object. rewrite zget_element. apply entry_got. Qed.

  (** what a typed getter returns *)
  Definition answer {A} (is : obj -> A -> Prop) (zero : A) (x : option obj) (r : A * bool) : Prop :=
    (typed E file p is x (fst r) /\ snd r = true) \/ (untyped E file p is x /\ r = (zero, false)).

  Section Typed.
    Context {A : Type} (is : obj -> A -> Prop) (zero : A) (as_ : obj * bool -> A * bool).
    Hypothesis C : classifies is zero as_.
    Hypothesis dec : forall v, (exists a, is v a) \/ (forall a, ~ is v a).

    Lemma as_answer : forall x y, value E file p x y -> answer is zero x (as_ (found y)).
    Proof.
      intros x y H. destruct C as [C0 C1]. destruct y as [v |]; cbn [found].
      - destruct (dec v) as [[a Ha] | N].
        + left. rewrite (proj1 (C1 v) a Ha). split; [exists v; auto | reflexivity].
        + right. rewrite (proj2 (C1 v) N). split; [right; exists v; auto | reflexivity].
      - right. change (OKw (lit "null")) with KEYWORD_NULL. rewrite C0. split; [left; assumption | reflexivity].
    Qed.
    Lemma typed_as : forall x a, typed E file p is x a -> exists y, value E file p x y /\ as_ (found y) = (a, true).
    Proof. intros x a (v & V & H). exists (Some v). split; [assumption |]. apply (proj2 C). assumption. Qed.
    Lemma untyped_as : forall x, untyped E file p is x -> exists y, value E file p x y /\ as_ (found y) = (zero, false).
    Proof.
      intros x [V | (v & V & H)].
      - exists None. split; [assumption |]. apply (proj1 C).
      - exists (Some v). split; [assumption |]. apply (proj2 C). assumption.
    Qed.

    Lemma d_typed_gives : forall d k a, typed E file p is (entry d k) a ->
      gives file p (fun f => x <- d_object (Resolve f E file) d k ;; ret (as_ x)) (a, true) (kept file p).
    Proof.
      intros d k a H. destruct (typed_as _ _ H) as (y & V & R). eapply gives_bind; [apply d_object_gives; exact V |].
      rewrite R. apply gives_ret.
    Qed.
    Lemma d_untyped_gives : forall d k, untyped E file p is (entry d k) ->
      gives file p (fun f => x <- d_object (Resolve f E file) d k ;; ret (as_ x)) (zero, false) (kept file p).
    Proof.
      intros d k H. destruct (untyped_as _ H) as (y & V & R). eapply gives_bind; [apply d_object_gives; exact V |].
      rewrite R. apply gives_ret.
    Qed.
    Lemma a_typed_gives : forall d k a, typed E file p is (element d k) a ->
      gives file p (fun f => x <- a_object (Resolve f E file) d k ;; ret (as_ x)) (a, true) (kept file p).
    Proof.
      intros d k a H. destruct (typed_as _ _ H) as (y & V & R). eapply gives_bind; [apply a_object_gives; exact V |].
      rewrite R. apply gives_ret.
    Qed.
    Lemma a_untyped_gives : forall d k, untyped E file p is (element d k) ->
      gives file p (fun f => x <- a_object (Resolve f E file) d k ;; ret (as_ x)) (zero, false) (kept file p).
    Proof.
      intros d k H. destruct (untyped_as _ H) as (y & V & R). eapply gives_bind; [apply a_object_gives; exact V |].
      rewrite R. apply gives_ret.
    Qed.
    Lemma d_typed_got : forall f d k, got file p (x <- d_object (Resolve f E file) d k ;; ret (as_ x))
      (fun r q => answer is zero (entry d k) r /\ kept file p q).
    Proof.
      intros f d k. eapply got_bind; [apply d_object_got |]. intros r (y & V & ->). apply got_ret. intros q K.
      split; [apply as_answer | ]; assumption.
    Qed.
    Lemma a_typed_got : forall f d k, got file p (x <- a_object (Resolve f E file) d k ;; ret (as_ x))
      (fun r q => answer is zero (element d k) r /\ kept file p q).
    Proof.
      intros f d k. eapply got_bind; [apply a_object_got |]. intros r (y & V & ->). apply got_ret. intros q K.
      split; [apply as_answer | ]; assumption.
    Qed.
  End Typed.

  Lemma is_array_dec : forall v, (exists a, is_array v a) \/ (forall a, ~ is_array v a).
  Proof. unfold is_array. destruct v; try (right; discriminate). left; eauto. Qed.
  Lemma is_dict_dec : forall v, (exists a, is_dict v a) \/ (forall a, ~ is_dict v a).
  Proof. unfold is_dict. destruct v; try (right; discriminate). left; eauto. Qed.
  Lemma is_name_dec : forall v, (exists a, is_name v a) \/ (forall a, ~ is_name v a).
  Proof. unfold is_name. destruct v; try (right; discriminate). left; eauto. Qed.
  Lemma is_string_dec : forall v, (exists a, is_string v a) \/ (forall a, ~ is_string v a).
  Proof. unfold is_string. destruct v; try (right; discriminate). left; eauto. Qed.
  Lemma is_number_dec : forall v, (exists a, is_number v a) \/ (forall a, ~ is_number v a).
  Proof. unfold is_number. destruct v; try (right; discriminate). left; eauto. Qed.
  Lemma is_int_dec : forall v, (exists a, is_int v a) \/ (forall a, ~ is_int v a).
  Proof. unfold is_int. destruct v; try (right; intros a (q & H & _); discriminate). left; eauto. Qed.
  Lemma is_bool_dec : forall v, (exists a, is_bool v a) \/ (forall a, ~ is_bool v a).
  Proof.
    unfold is_bool. destruct v as [| | | k | | |]; try (right; discriminate).
    destruct (bseq k (lit "true")) eqn:T; [apply bseq_eq in T; left; exists true; congruence |].
    destruct (bseq k (lit "false")) eqn:F; [apply bseq_eq in F; left; exists false; congruence |].
    right. intros [] H; injection H as ->; discriminate.
  Qed.
End Look.
