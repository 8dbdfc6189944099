(** TreeP.v -- proofs about page trees and name trees. *)
From Verif Require Import Base BaseP Msg Reader ReaderP Num Lexer Obj ReadObj Env Getters Crypt GetObj Tree RelP GetObjP SpecRead SpecLook
  FetchP LookP SecurityP SpecFetch SpecTree.
From Coq Require Import Strings.String.
Local Open Scope m_scope.

(** ** Combinators *)
Lemma works_ret : forall A file p (a : A), works file p (fun _ _ => ret a) a.
Proof. intros. exists O. intros f1 f2 q _ _ K. exists q. split; [reflexivity | assumption]. Qed.
Lemma works_bind : forall A B file p (m : nat -> nat -> M A) (k : nat -> nat -> A -> M B) a b,
  works file p m a -> works file p (fun f1 f2 => k f1 f2 a) b -> works file p (fun f1 f2 => bind (m f1 f2) (k f1 f2)) b.
Proof.
  intros A B file p m k a b (F1 & H1) (F2 & H2). exists (Nat.max F1 F2). intros f1 f2 q L1 L2 K.
  destruct (H1 f1 f2 q) as (q1 & E1 & K1); try lia; try assumption.
  destruct (H2 f1 f2 q1) as (q2 & E2 & K2); try lia; try assumption.
  exists q2. unfold bind. rewrite E1. split; assumption.
Qed.
Lemma gives_works : forall A file p (m : nat -> M A) a, gives file p m a (kept file p) -> works file p (fun f _ => m f) a.
Proof. intros A file p m a (F & H). exists F. intros f1 f2 q L1 _ K. apply H; assumption. Qed.
Lemma works_step : forall A file p (m M0 : nat -> nat -> M A) a, (forall f1 f2 q, M0 f1 (S f2) q = m f1 f2 q) ->
  works file p m a -> works file p M0 a.
Proof.
  intros A file p m M0 a H (F & G). exists (S F). intros f1 f2 q L1 L2 K. destruct f2 as [| f2]; [lia |].
  rewrite H. apply G; try lia. assumption.
Qed.
Lemma works_ext : forall A file p (m M0 : nat -> nat -> M A) a, (forall f1 f2 q, M0 f1 f2 q = m f1 f2 q) ->
  works file p m a -> works file p M0 a.
Proof. intros A file p m M0 a H (F & G). exists F. intros f1 f2 q L1 L2 K. rewrite H. apply G; assumption. Qed.

Lemma zmem_In : forall n l, zmem n l = true <-> In n l.
Proof.
  intros n l. unfold zmem. rewrite existsb_exists. split.
  - intros (x & H & Q). apply Z.eqb_eq in Q. subst. assumption.
  - intros H. exists n. split; [assumption | apply Z.eqb_refl].
Qed.
Lemma zmem_not : forall n l, zmem n l = false <-> ~ In n l.
Proof. intros. rewrite <- zmem_In. destruct (zmem n l); split; congruence. Qed.

(** ** Numbers not met yet *)
Definition unseen (keys seen : list Z) : nat := List.length (filter (fun n => negb (zmem n seen)) keys).
Lemma filter_len_le : forall A (f g : A -> bool) l, (forall x, In x l -> f x = true -> g x = true) ->
  (List.length (filter f l) <= List.length (filter g l))%nat.
Proof.
  induction l as [| x l IH]; intros H; [apply le_n |]. cbn [filter].
  assert (L : (List.length (filter f l) <= List.length (filter g l))%nat) by (apply IH; intros; apply H; [right|]; assumption).
  destruct (f x) eqn:Fx; [rewrite (H x (or_introl eq_refl) Fx); cbn; lia |]. destruct (g x); cbn; lia.
Qed.
Lemma filter_len_lt : forall A (f g : A -> bool) l y, (forall x, In x l -> f x = true -> g x = true) -> In y l -> f y = false -> g y = true ->
  (List.length (filter f l) < List.length (filter g l))%nat.
Proof.
  induction l as [| x l IH]; intros y H I Fy Gy; [destruct I |]. cbn [filter].
  assert (L : (List.length (filter f l) <= List.length (filter g l))%nat) by (apply filter_len_le; intros; apply H; [right|]; assumption).
  destruct I as [-> | I].
  - rewrite Fy, Gy. cbn. lia.
  - assert (L' : (List.length (filter f l) < List.length (filter g l))%nat) by (apply (IH y); auto; intros; apply H; [right|]; assumption).
    destruct (f x) eqn:Fx; [rewrite (H x (or_introl eq_refl) Fx); cbn; lia |]. destruct (g x); cbn; lia.
Qed.
Lemma unseen_le : forall keys s s', incl s s' -> (unseen keys s' <= unseen keys s)%nat.
Proof.
  intros keys s s' H. apply filter_len_le. intros x _ N. apply Bool.negb_true_iff in N. apply Bool.negb_true_iff.
  apply zmem_not. apply zmem_not in N. auto.
Qed.
Lemma unseen_lt : forall keys s n, In n keys -> ~ In n s -> (unseen keys (n :: s) < unseen keys s)%nat.
Proof.
  intros keys s n I N. apply (filter_len_lt _ _ _ _ n); [| assumption | |].
  - intros x _ X. apply Bool.negb_true_iff in X. apply Bool.negb_true_iff. apply zmem_not. apply zmem_not in X.
    intros Hx. apply X. right. assumption.
  - apply Bool.negb_false_iff. apply zmem_In. left. reflexivity.
  - apply Bool.negb_true_iff. apply zmem_not. assumption.
Qed.

Lemma xget_keys : forall n m e, xget n m = Some e -> In n (map fst m).
Proof.
  intros n m e. unfold xget, mget. induction m as [| [k v] m IH]; cbn; [discriminate |].
  destruct (Z.eqb n k) eqn:K; [left; symmetry; apply Z.eqb_eq; assumption |]. intros H. right. auto.
Qed.

Section Tree.
  Variables (E : env) (file : bytes) (p : pst).
  Hypothesis W : reads file p.
  Hypothesis O : offsets_ok (pxref p).

  Notation page := (page E file p).
  Notation array_at := (array_at E file p).
  Notation node := (node E file p).

  Lemma array_at_det : forall d k l l', array_at d k l -> array_at d k l' -> l = l'.
  Proof.
    intros d k l l' [(v & V & A) | [U ->]] [(v' & V' & A') | [U' ->]].
    - pose proof (value_det _ _ _ _ _ _ V V'). unfold is_array in *. congruence.
    - exfalso. destruct U' as [V' | (v' & V' & N)]; pose proof (value_det _ _ _ _ _ _ V V') as Q; [discriminate |].
      injection Q as <-. exact (N _ A).
    - exfalso. destruct U as [V | (v & V & N)]; pose proof (value_det _ _ _ _ _ _ V V') as Q; [discriminate |].
      injection Q as ->. exact (N _ A').
    - reflexivity.
  Qed.
  Lemma page_det : forall n d d', page n d -> page n d' -> d = d'.
  Proof. intros n d d' (o & T & V) (o' & T' & V'). pose proof (target_det _ _ _ _ _ _ T T'). congruence. Qed.

  Lemma array_at_works : forall d k l, array_at d k l ->
    exists ok, works file p (fun f _ => d_array (Resolve f E file) d (lit k)) (l, ok) /\ (ok = false -> l = []).
  Proof.
    intros d k l [T | [U ->]].
    - exists true. split; [| discriminate]. apply gives_works. apply array_gives; assumption.
    - exists false. split; [| reflexivity]. apply gives_works.
      apply (d_untyped_gives E file p W O is_array [] as_array array_classifies). assumption.
  Qed.

  (** A number without an entry is not a dictionary. *)
  Lemma page_key : forall n d, page n d -> In n (map fst (pxref p)).
  Proof.
    intros n d (o & (f & p' & R) & V). destruct (xget n (pxref p)) as [e |] eqn:X; [eapply xget_keys; eassumption |].
    exfalso. unfold Resolve, restoring, bind in R.
    destruct (resolve f E file n [] p) as [[o' q]| |] eqn:R'; try discriminate. destruct f as [| f]; [discriminate |].
    cbn [resolve zmem existsb] in R'. unfold bind in R'. destruct f as [| f]; [discriminate |].
    unfold pseek, ret in R. assert (o' = o) by congruence. subst o'.
    cbn [get_object] in R'. rewrite X in R'. unfold ret in R'. cbn in R'. injection R' as <- _. discriminate V.
  Qed.

  Hypothesis T : forall n, exists o, target E file p n o.

  Lemma value_ex : forall x, exists y, value E file p x y.
  Proof.
    intros [x |]; [| exists None; constructor]. destruct x; try (eexists; apply v_direct; discriminate).
    destruct (T n) as [o H]. exists (Some (ival o)). apply v_ref. assumption.
  Qed.
  Lemma typed_or_ex : forall A (is : obj -> A -> Prop) x dflt, (forall v, (exists a, is v a) \/ (forall a, ~ is v a)) ->
    exists a, typed_or E file p is x dflt a.
  Proof.
    intros A is x dflt dec. destruct (value_ex x) as [[v |] V].
    - destruct (dec v) as [[a Ha] | N]; [exists a; left; exists v; auto |]. exists dflt. right. split; [right; exists v; auto | reflexivity].
    - exists dflt. right. split; [left; assumption | reflexivity].
  Qed.
  Lemma array_at_ex : forall d k, exists l, array_at d k l.
  Proof. intros. apply typed_or_ex. apply is_array_dec. Qed.
  Lemma node_ex : forall x, exists d, node x d.
  Proof. intros. apply typed_or_ex. apply is_dict_dec. Qed.

  (** ** Page trees *)
  (** the traversal, step by step *)
  Inductive walk : list obj -> list Z -> list (Z * dict) -> list Z -> Prop :=
  | wk_nil : forall s, walk [] s [] s
  | wk_other : forall x ks s vs s', (forall n g, x <> ORef n g) -> walk ks s vs s' -> walk (x :: ks) s vs s'
  | wk_seen : forall n g ks s vs s', In n s -> walk ks s vs s' -> walk (ORef n g :: ks) s vs s'
  | wk_skip : forall n g ks s vs s', ~ In n s -> (forall d, ~ page n d) -> walk ks (n :: s) vs s' -> walk (ORef n g :: ks) s vs s'
  | wk_page : forall n g d ks' ks s vs1 s1 vs2 s2, ~ In n s -> page n d -> array_at d "Kids" ks' ->
      walk ks' (n :: s) vs1 s1 -> walk ks s1 vs2 s2 -> walk (ORef n g :: ks) s ((n, d) :: vs1 ++ vs2) s2.

  Lemma walk_incl : forall ks s vs s', walk ks s vs s' -> incl s s'.
  Proof.
    induction 1; try apply incl_refl; try assumption.
    - intros x Hx. apply IHwalk. right. assumption.
    - intros x Hx. apply IHwalk2, IHwalk1. right. assumption.
  Qed.

  Lemma resolve_kids_works : forall d ks s (vs : list (Z * dict)) s', array_at d "Kids" ks ->
    (forall acc, works file p (fun f1 f2 => page_kids (Resolve f1 E file) f2 ks acc s) (acc ++ map snd vs, s')) ->
    works file p (fun f1 f2 => resolve_kids (Resolve f1 E file) f2 d s) (d :: map snd vs, s').
  Proof.
    intros d ks s vs s' K H. destruct (array_at_works d "Kids" ks K) as (ok & D & N).
    eapply works_step; [intros; cbn [resolve_kids]; reflexivity |].
    eapply works_bind; [exact D |]. cbv iota beta. destruct ok; [apply (H [d]) |].
    specialize (N eq_refl). subst ks. destruct (H [d]) as (F & G). exists 0%nat. intros f1 f2 q _ _ Kq.
    destruct (G F (S F) q) as (q' & Q & _); try lia; try assumption. cbn [page_kids] in Q.
    unfold ret in Q. exists q. split; [| assumption]. unfold ret. cbn [app] in Q. f_equal. f_equal. congruence.
  Qed.

  Lemma walk_ex : forall m s, (unseen (map fst (pxref p)) s <= m)%nat -> forall ks, exists vs s', walk ks s vs s' /\
    forall acc, works file p (fun f1 f2 => page_kids (Resolve f1 E file) f2 ks acc s) (acc ++ map snd vs, s').
  Proof.
    induction m as [m IHm] using lt_wf_ind. intros s L ks. revert s L.
    induction ks as [| x ks IH]; intros s L.
    { exists [], s. split; [constructor |]. intros acc. rewrite app_nil_r. eapply works_step; [intros; cbn [page_kids]; reflexivity |].
      apply works_ret. }
    assert (D : (exists n g, x = ORef n g) \/ (forall n g, x <> ORef n g)) by (destruct x; try (right; discriminate); left; eauto).
    destruct D as [(n & g & ->) | D].
    2: { destruct (IH s L) as (vs & s' & H & G). exists vs, s'. split; [apply wk_other; assumption |]. intros acc.
         eapply works_step; [| apply G]. intros. destruct x; try reflexivity. exfalso. eapply D. reflexivity. }
    destruct (zmem n s) eqn:Z.
    { destruct (IH s L) as (vs & s' & H & G). exists vs, s'. split; [apply wk_seen; [apply zmem_In; assumption | assumption] |].
      intros acc. eapply works_step; [| apply G]. intros. cbn [page_kids]. rewrite Z. reflexivity. }
    destruct (T n) as [o To]. pose proof (target_gives E file p W O n o To) as R. apply gives_works in R.
    assert (P : (exists d, ival o = ODict d) \/ (forall d, ival o <> ODict d)) by (destruct (ival o); try (right; discriminate); left; eauto).
    destruct P as [(d & V) | V].
    - assert (P : page n d) by (exists o; auto).
      pose proof (unseen_lt _ s n (page_key _ _ P) (proj1 (zmem_not _ _) Z)) as Lt.
      destruct (array_at_ex d "Kids") as [ks' K'].
      destruct (IHm (unseen (map fst (pxref p)) (n :: s)) ltac:(lia) (n :: s) ltac:(lia) ks') as (vs1 & s1 & H1 & G1).
      pose proof (unseen_le (map fst (pxref p)) (n :: s) s1 (walk_incl _ _ _ _ H1)) as L1.
      destruct (IH s1 ltac:(lia)) as (vs2 & s2 & H2 & G2).
      exists ((n, d) :: vs1 ++ vs2), s2. split; [eapply wk_page; eauto; apply zmem_not; assumption |]. intros acc.
      eapply works_step; [intros; cbn [page_kids]; rewrite Z; reflexivity |].
      eapply works_bind; [exact R |]. cbv beta. rewrite V.
      eapply works_bind; [eapply resolve_kids_works; eassumption |]. cbv iota beta.
      specialize (G2 (acc ++ d :: map snd vs1)). rewrite <- app_assoc in G2. cbn [map snd]. rewrite map_app. exact G2.
    - pose proof (unseen_le (map fst (pxref p)) s (n :: s) (incl_tl n (incl_refl s))) as L1.
      destruct (IH (n :: s) ltac:(lia)) as (vs & s' & H & G). exists vs, s'. split.
      + apply wk_skip; [apply zmem_not; assumption | | assumption]. intros d (o' & To' & V').
        pose proof (target_det _ _ _ _ _ _ To To'). subst o'. exact (V d V').
      + intros acc. eapply works_step; [intros; cbn [page_kids]; rewrite Z; reflexivity |].
        eapply works_bind; [exact R |]. cbv beta. destruct (ival o); try apply G. exfalso. eapply V. reflexivity.
  Qed.

  (** what the traversal adds to the numbers seen *)
  Lemma walk_seen : forall ks s vs s', walk ks s vs s' -> forall n d, page n d -> (In n s' <-> In n s \/ In n (map fst vs)).
  Proof.
    induction 1 as [s | x ks s vs s' D H IH | m g ks s vs s' I H IH | m g ks s vs s' N P H IH
                    | m g e ks' ks s vs1 s1 vs2 s2 N P K H1 IH1 H2 IH2]; intros n d Q.
    - cbn. tauto.
    - eauto.
    - eauto.
    - rewrite (IH n d Q). cbn. split; [| tauto]. intros [[-> | ?] | ?]; auto. exfalso. eapply P. exact Q.
    - rewrite (IH2 n d Q), (IH1 n d Q). cbn [map fst]. rewrite map_app. cbn [In]. rewrite in_app_iff. tauto.
  Qed.
  Lemma walk_pages : forall ks s vs s', walk ks s vs s' -> forall n d, In (n, d) vs -> page n d.
  Proof.
    induction 1; intros a b I; try (destruct I; fail); eauto.
    destruct I as [Q | I]; [congruence |]. apply in_app_iff in I. destruct I; eauto.
  Qed.
  Lemma walk_fresh : forall ks s vs s', walk ks s vs s' -> NoDup (map fst vs) /\ forall n, In n (map fst vs) -> ~ In n s.
  Proof.
    induction 1 as [s | x ks s vs s' D H IH | m g ks s vs s' I H IH | m g ks s vs s' N P H IH
                    | m g e ks' ks s vs1 s1 vs2 s2 N P K H1 IH1 H2 IH2]; try assumption.
    - split; [constructor | intros n []].
    - destruct IH as [A B]. split; [assumption |]. intros n I Is. apply (B n I). right. assumption.
    - destruct IH1 as [A1 B1], IH2 as [A2 B2]. cbn [map fst]. rewrite map_app.
      assert (I1 : forall n, In n (map fst vs1) -> In n s1).
      { intros n I. apply in_map_iff in I. destruct I as ([n' d] & <- & I). apply (proj2 (walk_seen _ _ _ _ H1 n' d (walk_pages _ _ _ _ H1 _ _ I))).
        right. apply in_map_iff. exists (n', d). auto. }
      split.
      + constructor.
        * rewrite in_app_iff. intros [I | I]; [apply (B1 m I); left; reflexivity |]. apply (B2 m I).
          apply (walk_incl _ _ _ _ H1). left. reflexivity.
        * clear - A1 A2 I1 B2. induction (map fst vs1) as [| a l IH]; [assumption |]. cbn [app]. apply NoDup_cons_iff in A1.
          destruct A1 as [Na A1]. constructor.
          -- rewrite in_app_iff. intros [I | I]; [auto |]. apply (B2 a I). apply I1. left. reflexivity.
          -- apply IH; [assumption |]. intros n I. apply I1. right. assumption.
      + intros n I Is. cbn [In] in I. rewrite in_app_iff in I. destruct I as [<- | [I | I]].
        * exact (N Is).
        * apply (B1 n I). right. assumption.
        * apply (B2 n I). apply (walk_incl _ _ _ _ H1). right. assumption.
  Qed.

  (** references below seen pages have been seen, except below the pages
      still being worked on *)
  Definition done (path s : list Z) : Prop := forall m d ks n g, In m s -> ~ In m path -> page m d -> array_at d "Kids" ks ->
    In (ORef n g) ks -> In n s.

  Lemma firsts_ext : forall l s s', (forall n, In n (map fst l) -> (In n s <-> In n s')) -> firsts s l = firsts s' l.
  Proof.
    induction l as [| [n d] l IH]; intros s s' H; [reflexivity |]. cbn [firsts].
    assert (Hn : In n s <-> In n s') by (apply H; left; reflexivity).
    destruct (in_dec Z.eq_dec n s) as [I | I], (in_dec Z.eq_dec n s') as [I' | I']; try tauto.
    - apply IH. intros m M. apply H. right. assumption.
    - f_equal. apply IH. intros m M. cbn [In]. rewrite (H m (or_intror M)). tauto.
  Qed.
  Lemma firsts_app : forall a b s, firsts s (a ++ b) = firsts s a ++ firsts (map fst a ++ s) b.
  Proof.
    induction a as [| [n d] a IH]; intros b s; [reflexivity |]. cbn [app firsts map fst].
    destruct (in_dec Z.eq_dec n s) as [I | I].
    - rewrite IH. f_equal. apply firsts_ext. intros m _. cbn [In]. rewrite !in_app_iff. split; [tauto |]. intros [<- | H]; tauto.
    - cbn [app]. f_equal. rewrite IH. f_equal. apply firsts_ext. intros m _. cbn [In]. rewrite !in_app_iff. cbn [In]. tauto.
  Qed.
  Lemma firsts_none : forall a s, (forall n, In n (map fst a) -> In n s) -> firsts s a = [].
  Proof.
    induction a as [| [n d] a IH]; intros s H; [reflexivity |]. cbn [firsts].
    destruct (in_dec Z.eq_dec n s) as [I | I]; [| exfalso; apply I, H; left; reflexivity]. apply IH. intros m M. apply H. right. assumption.
  Qed.
  Lemma firsts_in : forall a s n, In n (map fst (firsts s a)) -> In n (map fst a).
  Proof.
    induction a as [| [m d] a IH]; intros s n H; [assumption |]. cbn [firsts] in H. cbn [map fst].
    destruct (in_dec Z.eq_dec m s); [right; eauto |]. destruct H as [H | H]; [left; assumption | right; eauto].
  Qed.
  Lemma firsts_all : forall a s n, In n (map fst a) -> In n s \/ In n (map fst (firsts s a)).
  Proof.
    induction a as [| [m d] a IH]; intros s n H; [destruct H |]. cbn [firsts]. cbn [map fst] in H.
    destruct (in_dec Z.eq_dec m s) as [I | I].
    - destruct H as [<- | H]; [left; assumption | auto].
    - cbn [map fst In]. destruct H as [<- | H]; [right; left; reflexivity |]. destruct (IH (m :: s) n H) as [[<- | X] | X]; auto.
  Qed.
  Lemma firsts_nodup : forall l, NoDup (map fst l) -> firsts [] l = l.
  Proof.
    intros l. cut (forall s, NoDup (map fst l) -> (forall n, In n (map fst l) -> ~ In n s) -> firsts s l = l).
    { intros H N. apply H; [assumption |]. intros n _ []. }
    induction l as [| [n d] l IH]; intros s N D; [reflexivity |]. cbn [firsts]. cbn [map fst] in N, D. apply NoDup_cons_iff in N. destruct N as [Nn N].
    destruct (in_dec Z.eq_dec n s) as [I | I]; [exfalso; apply (D n); [left; reflexivity | assumption] |].
    f_equal. apply IH; [assumption |]. intros m M [<- | X]; [auto |]. apply (D m); [right; assumption | assumption].
  Qed.

  Notation unfolded := (unfolded E file p).
  Lemma preorder_cons : forall n d sub ts, preorder (PT n d sub :: ts) = (n, d) :: preorder sub ++ preorder ts.
  Proof. reflexivity. Qed.

  Lemma unfolded_pages : forall path ks ts, unfolded path ks ts -> forall n, In n (map fst (preorder ts)) -> exists d, page n d.
  Proof.
    induction 1; intros a I; try (destruct I; fail); auto. rewrite preorder_cons in I. cbn [map fst] in I. rewrite map_app in I.
    destruct I as [<- | I]; [eauto |]. apply in_app_iff in I. destruct I; auto.
  Qed.
  Lemma unfolded_seen : forall path ks ts, unfolded path ks ts -> forall P s, incl P path -> incl P s -> done P s ->
    (forall n g, In (ORef n g) ks -> In n s) -> forall n, In n (map fst (preorder ts)) -> In n s.
  Proof.
    induction 1 as [| path x ks ts D H IH | path n g ks ts D H IH | path n g ks ts B H IH
                    | path n g d ks' sub ks ts N Pg K H1 IH1 H2 IH2]; intros P s I1 I2 Dn R a Ia.
    - destruct Ia.
    - eapply IH; eauto. intros b g Ib. eapply R. right. exact Ib.
    - eapply IH; eauto. intros b g' Ib. eapply R. right. exact Ib.
    - eapply IH; eauto. intros b g' Ib. eapply R. right. exact Ib.
    - rewrite preorder_cons in Ia. cbn [map fst] in Ia. rewrite map_app in Ia.
      assert (In n s) by (eapply R; left; reflexivity).
      destruct Ia as [<- | Ia]; [assumption |]. apply in_app_iff in Ia. destruct Ia as [Ia | Ia].
      + apply (IH1 P s); try assumption.
        * intros b Ib. right. auto.
        * intros b g' Ib. eapply (Dn n); eauto.
      + apply (IH2 P s); try assumption. intros b g' Ib. eapply R. right. exact Ib.
  Qed.

  Lemma walk_order : forall ks s vs s', walk ks s vs s' -> forall path ts, unfolded path ks ts -> incl path s -> done path s ->
    vs = firsts s (preorder ts) /\ done path s' /\ (forall n g, In (ORef n g) ks -> In n s').
  Proof.
    induction 1 as [s | x ks s vs s' D H IH | m g ks s vs s' I H IH | m g ks s vs s' N P H IH
                    | m g e ks' ks s vs1 s1 vs2 s2 N P K H1 IH1 H2 IH2]; intros path ts U Ip Dn.
    - inversion U; subst. split; [reflexivity |]. split; [assumption |]. intros n g [].
    - assert (U' : unfolded path ks ts) by (inversion U; subst; try assumption; exfalso; eapply D; reflexivity).
      destruct (IH path ts U' Ip Dn) as (A & B & C). split; [assumption |]. split; [assumption |].
      intros n g [-> | Hn]; [exfalso; eapply D; reflexivity | eapply C; exact Hn].
    - assert (Q : exists ts', unfolded path ks ts' /\ firsts s (preorder ts) = firsts s (preorder ts')).
      { inversion U as [| ? ? ? ? D' U' | ? ? ? ? ? D' U' | ? ? ? ? ? D' U' | ? ? ? d' k' sub' ? ts' N' P' K' U1 U2]; subst; try (exists ts; split; [assumption | reflexivity]).
        exists ts'. split; [assumption |]. rewrite preorder_cons. cbn [firsts]. destruct (in_dec Z.eq_dec m s); [| tauto].
        rewrite firsts_app. rewrite (firsts_none (preorder sub')).
        - cbn [app]. apply firsts_ext. intros n _. rewrite in_app_iff. split; [| tauto]. intros [Hn |]; [| assumption].
          apply (unfolded_seen _ _ _ U1 path s); try assumption.
          + intros b Ib. right. assumption.
          + intros b g' Ib. exact (Dn m d' k' b g' I N' P' K' Ib).
        - intros n Hn. apply (unfolded_seen _ _ _ U1 path s); try assumption.
          + intros b Ib. right. assumption.
          + intros b g' Ib. exact (Dn m d' k' b g' I N' P' K' Ib). }
      destruct Q as (ts' & U' & Q). destruct (IH path ts' U' Ip Dn) as (A & B & C). split; [congruence |]. split; [assumption |].
      intros n g' [Hn | Hn]; [| eapply C; exact Hn]. injection Hn as <- _. apply (walk_incl _ _ _ _ H). assumption.
    - assert (U' : unfolded path ks ts) by (inversion U; subst; try assumption; exfalso; eapply P; eassumption).
      assert (Dn' : done path (m :: s)).
      { intros a d ks0 n g0 [<- | Ia] Na Pa Ka In0; [exfalso; eapply P; exact Pa |]. right. eapply Dn; eauto. }
      destruct (IH path ts U' (fun a Ha => or_intror (Ip a Ha)) Dn') as (A & B & C). split; [| split; [assumption |]].
      + rewrite A. apply firsts_ext. intros n Hn. cbn [In]. split; [| tauto]. intros [<- | Hs]; [| assumption].
        exfalso. destruct (unfolded_pages _ _ _ U' m Hn) as [d Hd]. eapply P. exact Hd.
      + intros n g' [Hn | Hn]; [| eapply C; exact Hn]. injection Hn as <- _. apply (walk_incl _ _ _ _ H). left. reflexivity.
    - inversion U as [| ? ? ? ? D' U' | ? ? ? ? ? D' U' | ? ? ? ? ? D' U' | ? ? ? d' k' sub' ? ts' N' P' K' U1 U2]; subst.
      + exfalso. eapply D'. reflexivity.
      + exfalso. eapply D'. exact P.
      + exfalso. apply N, Ip, D'.
      + pose proof (page_det _ _ _ P P'). subst d'. pose proof (array_at_det _ _ _ _ K K'). subst k'.
        assert (Ip1 : incl (m :: path) (m :: s)) by (intros a [-> | Ha]; [left; reflexivity | right; auto]).
        assert (Dn1 : done (m :: path) (m :: s)).
        { intros a d ks0 n g0 Ia Na Pa Ka In0. destruct Ia as [-> | Ia]; [exfalso; apply Na; left; reflexivity |].
          right. eapply (Dn a); eauto. intros X. apply Na. right. assumption. }
        destruct (IH1 _ _ U1 Ip1 Dn1) as (A1 & B1 & C1).
        assert (Ip2 : incl path s1) by (intros a Ha; apply (walk_incl _ _ _ _ H1); right; auto).
        assert (Dn2 : done path s1).
        { intros a d ks0 n g0 Ia Na Pa Ka In0. destruct (Z.eq_dec a m) as [-> | Ne].
          - pose proof (page_det _ _ _ P Pa). subst d. pose proof (array_at_det _ _ _ _ K Ka). subst ks0. eapply C1. exact In0.
          - eapply (B1 a); eauto. intros [X | X]; [congruence | contradiction]. }
        destruct (IH2 _ _ U2 Ip2 Dn2) as (A2 & B2 & C2). split; [| split; [assumption |]].
        * rewrite preorder_cons. cbn [firsts]. destruct (in_dec Z.eq_dec m s) as [? | _]; [contradiction |]. f_equal.
          rewrite firsts_app, <- A1. f_equal. rewrite A2. apply firsts_ext. intros n Hn.
          destruct (unfolded_pages _ _ _ U2 n Hn) as [dn Pn]. rewrite (walk_seen _ _ _ _ H1 n dn Pn), in_app_iff.
          split.
          -- intros [X | X]; [auto |]. left. rewrite A1 in X. eapply firsts_in. exact X.
          -- intros [X | X]; [| auto]. rewrite A1. apply firsts_all. assumption.
        * intros n g' [Hn | Hn]; [| eapply C2; exact Hn]. injection Hn as <- _. apply (walk_incl _ _ _ _ H2), (walk_incl _ _ _ _ H1).
          left. reflexivity.
  Qed.

  (** every graph can be unfolded *)
  Lemma unfolded_ex : forall m path, (unseen (map fst (pxref p)) path <= m)%nat -> forall ks, exists ts, unfolded path ks ts.
  Proof.
    induction m as [m IHm] using lt_wf_ind. intros path L ks. induction ks as [| x ks [ts IH]]; [exists []; constructor |].
    assert (D : (exists n g, x = ORef n g) \/ (forall n g, x <> ORef n g)) by (destruct x; try (right; discriminate); left; eauto).
    destruct D as [(n & g & ->) | D]; [| exists ts; apply un_other; assumption].
    destruct (in_dec Z.eq_dec n path) as [I | I]; [exists ts; apply un_back; assumption |].
    destruct (T n) as [o To]. assert (P : (exists d, page n d) \/ (forall d, ~ page n d)).
    { destruct (ival o) as [| | | | | | d] eqn:V; try (right; intros d (o' & To' & V'); pose proof (target_det _ _ _ _ _ _ To To'); congruence).
      left. exists d, o. auto. }
    destruct P as [[d P] | P]; [| exists ts; apply un_none; assumption].
    pose proof (unseen_lt _ path n (page_key _ _ P) I) as Lt. destruct (array_at_ex d "Kids") as [ks' K'].
    destruct (IHm (unseen (map fst (pxref p)) (n :: path)) ltac:(lia) (n :: path) ltac:(lia) ks') as [sub U].
    exists (PT n d sub :: ts). eapply un_page; eauto.
  Qed.

  (** the pages visited are those that can be reached *)
  Lemma walk_reached : forall ks s vs s', walk ks s vs s' -> forall n d, In (n, d) vs -> reachable E file p ks n d.
  Proof.
    assert (R : forall ks ks' n d, incl ks ks' -> reachable E file p ks n d -> reachable E file p ks' n d).
    { intros ks ks' n d H Rc. inversion Rc as [? ? g ? I P | ? m g e k2 ? ? I P K B]; subst; [eapply rc_here; eauto | eapply rc_below; eauto]. }
    induction 1 as [s | x ks s vs s' D H IH | m g ks s vs s' I H IH | m g ks s vs s' N P H IH
                    | m g e ks' ks s vs1 s1 vs2 s2 N P K H1 IH1 H2 IH2]; intros n d Hn.
    - destruct Hn.
    - eapply R; [apply incl_tl, incl_refl | eauto].
    - eapply R; [apply incl_tl, incl_refl | eauto].
    - eapply R; [apply incl_tl, incl_refl | eauto].
    - destruct Hn as [Q | Hn]; [assert (m = n) by congruence; assert (e = d) by congruence; subst; eapply rc_here; [left; reflexivity | assumption] |].
      apply in_app_iff in Hn. destruct Hn as [Hn | Hn].
      + eapply rc_below; [left; reflexivity | exact P | exact K | eauto].
      + eapply R; [apply incl_tl, incl_refl | eauto].
  Qed.
  Lemma done_reached : forall s ks, done [] s -> (forall n g, In (ORef n g) ks -> In n s) ->
    forall n d, reachable E file p ks n d -> In n s /\ page n d.
  Proof.
    intros s ks Dn R n d H. induction H as [ks n g d I P | ks m g e ks' n d I P K B IH].
    - split; [eapply R; exact I | assumption].
    - apply IH. intros a g' Ia. eapply (Dn m); eauto.
  Qed.

  Theorem page_tree_works : forall d k root, typed E file p is_dict (entry d k) root ->
    exists ks ts, array_at root "Kids" ks /\ unfolded [] ks ts /\
      works file p (fun f1 f2 => page_tree (Resolve f1 E file) f2 d k) (root :: map snd (firsts [] (preorder ts)), true) /\
      NoDup (map fst (firsts [] (preorder ts))) /\
      forall n e, In (n, e) (firsts [] (preorder ts)) <-> reachable E file p ks n e.
  Proof.
    intros d k root H. destruct (array_at_ex root "Kids") as [ks K].
    destruct (unfolded_ex _ [] (le_n _) ks) as [ts U]. destruct (walk_ex _ [] (le_n _) ks) as (vs & s' & Wk & G).
    assert (Dn : done [] []) by (intros a ? ? ? ? []).
    destruct (walk_order _ _ _ _ Wk [] ts U (incl_refl _) Dn) as (Q & Dn' & R). exists ks, ts. rewrite <- Q.
    split; [assumption |]. split; [assumption |]. split; [| split; [apply (walk_fresh _ _ _ _ Wk) |]].
    - unfold page_tree. eapply works_bind; [apply gives_works, dict_gives; eassumption |]. cbv iota beta.
      eapply works_bind; [eapply resolve_kids_works; eassumption |]. cbv iota beta. apply works_ret.
    - intros n e. split; [eapply walk_reached; exact Wk |]. intros Rc. destruct (done_reached _ _ Dn' R n e Rc) as [I P].
      apply (walk_seen _ _ _ _ Wk n e P) in I. destruct I as [[] | I]. apply in_map_iff in I. destruct I as ([n' e'] & Qn & I).
      cbn [fst] in Qn. subst n'. pose proof (walk_pages _ _ _ _ Wk _ _ I) as P'. rewrite (page_det _ _ _ P P'). assumption.
  Qed.
  Theorem page_tree_none : forall d k, untyped E file p is_dict (entry d k) ->
    works file p (fun f1 f2 => page_tree (Resolve f1 E file) f2 d k) ([], false).
  Proof.
    intros d k H. unfold page_tree. eapply works_bind; [apply gives_works, dict_gives_not; eassumption |]. cbv iota beta. apply works_ret.
  Qed.

  (** ** Name trees *)
  Lemma node_works : forall pre x ks d, node x d ->
    exists ok, works file p (fun f _ => a_dict (Resolve f E file) (pre ++ x :: ks) (zlen pre)) (d, ok).
  Proof.
    intros pre x ks d H. assert (Q : element (pre ++ x :: ks) (zlen pre) = Some x).
    { unfold element, zlen. destruct (Z.ltb_spec (Z.of_nat (List.length pre)) 0); [lia |]. rewrite Nat2Z.id, nth_error_app2, Nat.sub_diag by lia. reflexivity. }
    unfold node, SpecTree.node in H. rewrite <- Q in H. destruct H as [H | [H ->]].
    - exists true. apply gives_works. apply (a_typed_gives E file p W O is_dict [] as_dict dict_classifies). assumption.
    - exists false. apply gives_works. apply (a_untyped_gives E file p W O is_dict [] as_dict dict_classifies). assumption.
  Qed.
  Lemma zget_mid : forall pre (x : obj) ks, zget (pre ++ x :: ks) (zlen pre) = Some x.
  Proof.
    intros. rewrite zget_element. unfold element, zlen. destruct (Z.ltb_spec (Z.of_nat (List.length pre)) 0); [lia |].
    rewrite Nat2Z.id, nth_error_app2, Nat.sub_diag by lia. reflexivity.
  Qed.
  Lemma pre_snoc : forall pre (x : obj) ks, pre ++ x :: ks = (pre ++ [x]) ++ ks.
  Proof. intros. rewrite <- app_assoc. reflexivity. Qed.
  Lemma zlen_snoc : forall pre (x : obj), zlen (pre ++ [x]) = zlen pre + 1.
  Proof. intros. unfold zlen. rewrite app_length. cbn. lia. Qed.

  Notation kids_loop pre ks acc s := (fun f1 f2 => name_kids (Resolve f1 E file) f2 (@List.length obj ks) (@zlen obj pre) (pre ++ ks) acc s).
  Notation below d s := (fun f1 f2 => name_tree (Resolve f1 E file) f2 d s).

  Lemma kids_nil : forall pre acc s, works file p (kids_loop pre [] acc s) (acc, s).
  Proof. intros. eapply works_step; [intros; reflexivity |]. apply works_ret. Qed.
  Lemma kids_seen : forall pre n g ks acc s r, In n s -> works file p (kids_loop (pre ++ [ORef n g]) ks acc s) r ->
    works file p (kids_loop pre (ORef n g :: ks) acc s) r.
  Proof.
    intros pre n g ks acc s r I H. eapply works_step; [| exact H]. intros f1 f2 q. cbn [List.length name_kids]. rewrite zget_mid.
    rewrite (proj2 (zmem_In n s) I). rewrite pre_snoc, zlen_snoc. reflexivity.
  Qed.
  Definition marked (x : obj) (s : list Z) : list Z := match x with ORef n _ => n :: s | _ => s end.
  Lemma kids_next : forall pre x ks acc s d l s1 r, (forall n g, x = ORef n g -> ~ In n s) -> node x d ->
    works file p (below d (marked x s)) (l, s1) -> works file p (kids_loop (pre ++ [x]) ks (acc ++ l) s1) r ->
    works file p (kids_loop pre (x :: ks) acc s) r.
  Proof.
    intros pre x ks acc s d l s1 r N D H1 H2. destruct (node_works pre x ks d D) as (ok & A).
    eapply works_step with (m := fun f1 f2 => '(kid, _) <- a_dict (Resolve f1 E file) (pre ++ x :: ks) (zlen pre) ;;
      '(l, seen) <- name_tree (Resolve f1 E file) f2 kid (marked x s) ;;
      name_kids (Resolve f1 E file) f2 (List.length ks) (zlen pre + 1) (pre ++ x :: ks) (acc ++ l) seen).
    { intros f1 f2 q. cbn [List.length name_kids]. rewrite zget_mid. destruct x; try reflexivity.
      rewrite (proj2 (zmem_not n s) (N n g eq_refl)). reflexivity. }
    eapply works_bind; [exact A |]. cbv iota beta. eapply works_bind; [exact H1 |]. cbv iota beta.
    rewrite pre_snoc, <- zlen_snoc with (x := x). exact H2.
  Qed.
  Lemma below_works : forall d l0 ks s l s', array_at d "Names" l0 -> array_at d "Kids" ks ->
    works file p (kids_loop [] ks l0 s) (l, s') -> works file p (below d s) (l, s').
  Proof.
    intros d l0 ks s l s' H0 H1 H. destruct (array_at_works d "Names" l0 H0) as (ok & D & N).
    destruct (array_at_works d "Kids" ks H1) as (ok' & D' & N').
    eapply works_step; [intros; cbn [name_tree]; reflexivity |]. eapply works_bind; [exact D |]. cbv iota beta zeta.
    eapply works_bind; [exact D' |]. cbv iota beta.
    assert (Q : (if ok then l0 else []) = l0) by (destruct ok; [reflexivity | symmetry; auto]). rewrite Q.
    destruct ok'; [exact H |]. rewrite (N' eq_refl) in H.
    destruct H as (F & G). exists 0%nat. intros f1 f2 q _ _ Kq. destruct (G F (S F) q) as (q' & Q' & _); try lia; try assumption.
    exists q. split; [| assumption]. cbn [List.length name_kids] in Q'. unfold ret in *. f_equal. f_equal. congruence.
  Qed.
  Lemma below_nil : forall s, works file p (below [] s) ([], s).
  Proof.
    intros s. assert (U : forall k, array_at [] k []) by (intros k; right; split; [left; constructor | reflexivity]).
    eapply below_works; [apply U | apply U | apply kids_nil].
  Qed.

  Scheme nb_ind := Minimality for names_below Sort Prop
    with ni_ind := Minimality for names_in Sort Prop.
  Combined Scheme names_mut from nb_ind, ni_ind.

  Lemma names_work :
    (forall d ns l, names_below E file p d ns l -> forall s, NoDup ns -> (forall n, In n ns -> ~ In n s) ->
       exists s', works file p (below d s) (l, s') /\ forall n, In n s' <-> In n s \/ In n ns) /\
    (forall ks ns l, names_in E file p ks ns l -> forall pre acc s, NoDup ns -> (forall n, In n ns -> ~ In n s) ->
       exists s', works file p (kids_loop pre ks acc s) (acc ++ l, s') /\ forall n, In n s' <-> In n s \/ In n ns).
  Proof.
    apply names_mut.
    - intros d l0 ks ns l H0 H1 _ IH s N D. destruct (IH [] l0 s N D) as (s' & G & Q). exists s'. split; [| assumption].
      eapply below_works; eassumption.
    - intros pre acc s _ _. exists s. rewrite (app_nil_r acc). split; [apply kids_nil |]. cbn. tauto.
    - intros x ks d n1 l1 n2 l2 R Nd _ IH1 _ IH2 pre acc s N D.
      destruct (IH1 s) as (s1 & G1 & Q1).
      { clear - N. induction n1; [constructor |]. cbn [app] in N. apply NoDup_cons_iff in N. destruct N as [A B]. constructor; [| auto].
        intros I. apply A. apply in_app_iff. auto. }
      { intros n I. apply D. apply in_app_iff. auto. }
      destruct (IH2 (pre ++ [x]) (acc ++ l1) s1) as (s2 & G2 & Q2).
      { clear - N. induction n1; [assumption |]. cbn [app] in N. apply NoDup_cons_iff in N. apply IHn1, N. }
      { intros n I I1. apply Q1 in I1. destruct I1 as [I1 | I1]; [apply (D n); [apply in_app_iff; auto | assumption] |].
        clear - N I I1. induction n1 as [| a n1 IH]; [destruct I1 |]. cbn [app] in N. apply NoDup_cons_iff in N. destruct N as [A B].
        destruct I1 as [-> | I1]; [apply A, in_app_iff; auto | auto]. }
      exists s2. split.
      + rewrite app_assoc. eapply kids_next; [| exact Nd | | exact G2].
        * intros n g ->. exfalso. eapply R. reflexivity.
        * destruct x; try exact G1. exfalso. eapply R. reflexivity.
      + intros n. rewrite Q2, Q1, in_app_iff. tauto.
    - intros m g ks d n1 l1 n2 l2 Nd _ IH1 _ IH2 pre acc s N D. apply NoDup_cons_iff in N. destruct N as [Nm N].
      destruct (IH1 (m :: s)) as (s1 & G1 & Q1).
      { clear - N. induction n1; [constructor |]. cbn [app] in N. apply NoDup_cons_iff in N. destruct N as [A B]. constructor; [| auto].
        intros I. apply A. apply in_app_iff. auto. }
      { intros n I [<- | Is]; [apply Nm, in_app_iff; auto |]. apply (D n); [right; apply in_app_iff; auto | assumption]. }
      destruct (IH2 (pre ++ [ORef m g]) (acc ++ l1) s1) as (s2 & G2 & Q2).
      { clear - N. induction n1; [assumption |]. cbn [app] in N. apply NoDup_cons_iff in N. apply IHn1, N. }
      { intros n I I1. apply Q1 in I1. destruct I1 as [[<- | I1] | I1].
        - apply Nm, in_app_iff; auto.
        - apply (D n); [right; apply in_app_iff; auto | assumption].
        - clear - N I I1. induction n1 as [| a n1 IH]; [destruct I1 |]. cbn [app] in N. apply NoDup_cons_iff in N. destruct N as [A B].
          destruct I1 as [-> | I1]; [apply A, in_app_iff; auto | auto]. }
      exists s2. split.
      + rewrite app_assoc. eapply kids_next; [| exact Nd | exact G1 | exact G2].
        intros n g' Q. injection Q as <- _. apply D. left. reflexivity.
      + intros n. rewrite Q2, Q1. cbn [In]. rewrite in_app_iff. tauto.
  Qed.

  Theorem name_tree_works : forall d k root ns l, typed E file p is_dict (entry d k) root -> names_below E file p root ns l -> NoDup ns ->
    works file p (fun f1 f2 => name_tree_map (Resolve f1 E file) f2 d k) l.
  Proof.
    intros d k root ns l H B N. unfold name_tree_map. eapply works_bind; [apply gives_works, dict_gives; eassumption |]. cbv iota beta.
    destruct (proj1 names_work root ns l B [] N (fun n _ X => X)) as (s' & G & _).
    eapply works_bind; [exact G |]. cbv iota beta. apply works_ret.
  Qed.
  Theorem name_tree_none : forall d k, untyped E file p is_dict (entry d k) ->
    works file p (fun f1 f2 => name_tree_map (Resolve f1 E file) f2 d k) [].
  Proof.
    intros d k H. unfold name_tree_map. eapply works_bind; [apply gives_works, dict_gives_not; eassumption |]. cbv iota beta. apply works_ret.
  Qed.

  (** ** Termination *)
  Fixpoint osize (o : obj) : nat :=
    match o with
    | OArr l => S (list_sum (map osize l))
    | ODict d => S (list_sum (map (fun kv => osize (snd kv)) d))
    | _ => 1%nat
    end.
  Definition dsize (d : dict) : nat := list_sum (map (fun kv => osize (snd kv)) d).
  Lemma sum_in : forall l x, In x l -> (x <= list_sum l)%nat.
  Proof. induction l as [| a l IH]; intros x []; cbn; [subst; lia | specialize (IH x H); unfold list_sum in IH; lia]. Qed.
  Lemma entry_in : forall d k v, entry d k = Some v -> exists k', In (k', v) d.
  Proof.
    induction d as [| [k' v'] d IH]; intros k v H; [discriminate |]. cbn [entry] in H.
    destruct (list_eq_dec Byte.byte_eq_dec k k'); [exists k'; left; congruence |]. destruct (IH _ _ H) as (k2 & I). exists k2. right. assumption.
  Qed.
  Lemma kid_smaller : forall d k ks kd, entry d k = Some (OArr ks) -> In (ODict kd) ks -> (dsize kd < dsize d)%nat.
  Proof.
    intros d k ks kd H I. destruct (entry_in _ _ _ H) as (k' & I').
    pose proof (sum_in (map osize ks) (osize (ODict kd)) (in_map _ _ _ I)) as L1.
    pose proof (sum_in (map (fun kv => osize (snd kv)) d) (osize (OArr ks)) (in_map (fun kv => osize (snd kv)) d (k', OArr ks) I')) as L2.
    unfold dsize in *. cbn [osize] in *. lia.
  Qed.

  Lemma node_direct : forall x d, node x d -> (forall n g, x <> ORef n g) -> x = ODict d \/ d = [].
  Proof.
    intros x d [(v & V & D) | [_ ->]] N; [| auto]. left. inversion V; subst; [exact D |]. exfalso. eapply N. reflexivity.
  Qed.
  Lemma node_ref : forall n g d, node (ORef n g) d -> page n d \/ d = [].
  Proof.
    intros n g d [(v & V & D) | [_ ->]]; [| auto]. left. inversion V as [| x N | n' g' o To]; subst; [exfalso; eapply N; reflexivity |].
    exists o. auto.
  Qed.

  Lemma sane_ends : forall good, kids_sane E file p good -> forall m h d s, good d -> (unseen (map fst (pxref p)) s <= m)%nat ->
    (dsize d <= h)%nat -> exists l s', works file p (below d s) (l, s') /\ incl s s'.
  Proof.
    intros good Sane m. induction m as [m IHm] using lt_wf_ind. intros h. induction h as [h IHh] using lt_wf_ind. intros d s Gd L Lh.
    destruct (array_at_ex d "Names") as [l0 H0]. destruct (array_at_ex d "Kids") as [ks H1].
    destruct (Sane d ks Gd H1) as [Gk Dk].
    assert (Small : forall kd, In (ODict kd) ks -> (dsize kd < h)%nat).
    { intros kd I. destruct Dk as [Dk | Dk]; [pose proof (kid_smaller _ _ _ _ Dk I); lia | exfalso; eapply Dk; exact I]. }
    assert (Loop : forall ks' pre acc s, incl ks' ks -> (unseen (map fst (pxref p)) s <= m)%nat ->
      exists l s', works file p (kids_loop pre ks' acc s) (l, s') /\ incl s s').
    { induction ks' as [| x ks' IH]; intros pre acc s0 Ik Ls; [exists acc, s0; split; [apply kids_nil | apply incl_refl] |].
      assert (Ik' : incl ks' ks) by (intros a Ha; apply Ik; right; assumption).
      assert (Ix : In x ks) by (apply Ik; left; reflexivity).
      destruct (node_ex x) as [kd Nd].
      assert (R : (exists n g, x = ORef n g) \/ (forall n g, x <> ORef n g)) by (destruct x; try (right; discriminate); left; eauto).
      destruct R as [(n & g & ->) | R].
      - destruct (in_dec Z.eq_dec n s0) as [I | I].
        + destruct (IH (pre ++ [ORef n g]) acc s0 Ik' Ls) as (l & s' & G & Q). exists l, s'. split; [apply kids_seen |]; assumption.
        + assert (B : exists l s1, works file p (below kd (n :: s0)) (l, s1) /\ incl (n :: s0) s1).
          { destruct (node_ref _ _ _ Nd) as [P | ->]; [| exists [], (n :: s0); split; [apply below_nil | apply incl_refl]].
            pose proof (unseen_lt _ s0 n (page_key _ _ P) I) as Lt.
            apply (IHm (unseen (map fst (pxref p)) (n :: s0)) ltac:(lia) (dsize kd)); [| lia | lia]. eapply Gk; eauto. }
          destruct B as (l1 & s1 & G1 & Q1). pose proof (unseen_le (map fst (pxref p)) s0 s1 (fun a Ha => Q1 a (or_intror Ha))) as L1.
          destruct (IH (pre ++ [ORef n g]) (acc ++ l1) s1 Ik' ltac:(lia)) as (l & s' & G & Q). exists l, s'. split.
          * eapply kids_next; [| exact Nd | exact G1 | exact G]. intros n' g' X. congruence.
          * intros a Ha. apply Q, Q1. right. assumption.
      - assert (B : exists l s1, works file p (below kd s0) (l, s1) /\ incl s0 s1).
        { destruct (node_direct _ _ Nd R) as [-> | ->]; [| exists [], s0; split; [apply below_nil | apply incl_refl]].
          apply (IHh (dsize kd)); [apply Small; assumption | | assumption | lia]. eapply Gk; eauto. }
        destruct B as (l1 & s1 & G1 & Q1). pose proof (unseen_le (map fst (pxref p)) s0 s1 Q1) as L1.
        destruct (IH (pre ++ [x]) (acc ++ l1) s1 Ik' ltac:(lia)) as (l & s' & G & Q). exists l, s'. split.
        + eapply kids_next; [| exact Nd | | exact G]; [intros n g ->; exfalso; eapply R; reflexivity |].
          destruct x; try exact G1. exfalso. eapply R. reflexivity.
        + intros a Ha. apply Q, Q1. assumption. }
    destruct (Loop ks [] l0 s (incl_refl _) L) as (l & s' & G & Q). exists l, s'. split; [| assumption].
    eapply below_works; eassumption.
  Qed.
  Theorem name_tree_ends : forall d k good, kids_sane E file p good ->
    (forall root, typed E file p is_dict (entry d k) root -> good root) ->
    exists l, works file p (fun f1 f2 => name_tree_map (Resolve f1 E file) f2 d k) l.
  Proof.
    intros d k good Sane G. destruct (typed_or_ex _ is_dict (entry d k) [] is_dict_dec) as [root [H | [H ->]]].
    - destruct (sane_ends good Sane _ _ root [] (G root H) (le_n _) (le_n _)) as (l & s' & Wk & _). exists l.
      unfold name_tree_map. eapply works_bind; [apply gives_works, dict_gives; eassumption |]. cbv iota beta.
      eapply works_bind; [exact Wk |]. cbv iota beta. apply works_ret.
    - exists []. apply name_tree_none. assumption.
  Qed.
End Tree.
