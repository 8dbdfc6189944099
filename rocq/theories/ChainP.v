(** ChainP.v -- chains of actions (C70). *)
From Verif Require Import Base BaseP Msg Reader ReaderP Num Lexer Obj ReadObj Env Getters Crypt GetObj RelP GetObjP Load Output Render Parse SpecRead SpecFetch FetchP SpecLook LookP SpecOut OutP ExtractP RawP LoadInvP SpecSource SourceP SpecChain.
From Coq Require Import Strings.String.

Lemma resolve_in_use : forall E file p d, offsets_ok (pxref p) -> forall fuel n seen q o q', kept file p q -> resolve fuel E file n seen q = Ok (o, q') -> ival o = ODict d ->
  exists m, in_use p m /\ fetched E file p m o.
Proof.
  intros E file p d O fuel. induction fuel as [| f IH]; intros n seen q o q' K H V; [discriminate |]. cbn [resolve] in H.
  destruct (zmem n seen); [unfold ret in H; injection H as <- _; discriminate V |]. unfold bind in H.
  destruct (get_object f E file n q) as [[o1 q1] | |] eqn:G; try discriminate.
  destruct (get_object_keeps _ _ _ _ _ _ _ (proj1 K) G) as [W1 [X1 T1 S1]]. destruct K as (W & X & T & S).
  assert (K1 : kept file p q1) by (split; [exact W1 | repeat split; congruence]).
  assert (D : o1 = o -> exists m, in_use p m /\ fetched E file p m o).
  { intros ->. exists n. split.
    - destruct f as [| f']; [discriminate |]. cbn [get_object] in G. rewrite X in G. destruct (xget n (pxref p)) as [e |] eqn:Q; [| injection G as <- _; discriminate V].
      destruct (x_type e =? XrefTypeIndirectObject) eqn:B; [| injection G as <- _; discriminate V]. exists e. split; [exact Q | apply Z.eqb_eq in B; exact B].
    - pose proof (get_object_alike f E file n p q (eq_sym X) (eq_sym S) (fun e => O n e)) as A. unfold GetObject in A. rewrite G in A.
      destruct (get_object f E file n p) as [[o2 p2] | |] eqn:R; try contradiction. destruct A as [<- _]. exists f, p2. exact R. }
  destruct (ival o1) eqn:I1; try (apply D; unfold ret in H; injection H as H _; exact H). exact (IH _ _ q1 o q' K1 H V).
Qed.
Lemma target_in_use : forall E file p n o d, reads file p -> offsets_ok (pxref p) -> target E file p n o -> ival o = ODict d -> exists m, in_use p m /\ fetched E file p m o.
Proof.
  intros E file p n o d W O (f & p' & H) V. unfold Resolve, restoring, bind in H. destruct (resolve f E file n [] p) as [[o1 p1] | |] eqn:R; try discriminate.
  unfold pseek, ret in H. assert (o1 = o) as -> by congruence. exact (resolve_in_use E file p d O f n [] p o p1 (kept_refl file p W) R V).
Qed.
Lemma holds_on : forall x d e, holds x d -> holds (ODict d) e -> holds x e.
Proof. intros x d e H K. induction H as [d | k x d f I H IH | x l f I H IH]; [exact K | eapply hd_dict; [exact I | exact (IH K)] | eapply hd_array; [exact I | exact (IH K)]]. Qed.
Lemma entry_In : forall d k v, entry d k = Some v -> In (k, v) d.
Proof.
  intros d k v. induction d as [| [k' v'] d IH]; [discriminate |]. cbn [entry]. destruct (list_eq_dec Byte.byte_eq_dec k k') as [<- | N]; intros Q; [injection Q as <-; left; reflexivity | right; exact (IH Q)].
Qed.
Section Run.
  Variables (E : env) (file : bytes) (p : pst).
  Hypothesis W : reads file p.
  Hypothesis O : offsets_ok (pxref p).
  Lemma target_document : forall n o d, target E file p n o -> ival o = ODict d -> of_document E file p d.
  Proof.
    intros n o d T V. destruct (target_in_use E file p n o d W O T V) as (m & U & F). exists m, o, d. split; [exact U |]. split; [exact F |]. split; [exact V | apply hd_here].
  Qed.
  Lemma entry_document : forall h k b, of_document E file p h -> typed E file p is_dict (entry h k) b -> of_document E file p b.
  Proof.
    intros h k b (n & o & d & U & F & V & H) (v & T & ->). inversion T as [| x D Q | m g o' TG Q]; subst.
    - exists n, o, d. split; [exact U |]. split; [exact F |]. split; [exact V |]. apply (holds_on _ h); [exact H |]. apply (hd_dict k (ODict b)); [apply entry_In; symmetry; assumption | apply hd_here].
    - exact (target_document m o' b TG ltac:(assumption)).
  Qed.
  Lemma action_document : forall h a, of_document E file p h -> action_of E file p h a -> of_document E file p a.
  Proof.
    intros h a D [b T | b T | aa k b T I T2]; [exact (entry_document h _ b D T) | exact (entry_document h _ b D T) |]. exact (entry_document aa k b (entry_document h _ aa D T) T2).
  Qed.
  Lemma chained_document : forall a b, of_document E file p a -> chained E file p a b -> of_document E file p b.
  Proof.
    intros a b D H. induction H as [| b c H IH T | b l x c H IH TL I T R]; [exact D | exact (entry_document b _ c IH T) |].
    destruct R as [R | (n & g & ->)].
    - destruct T as (v & T & ->). inversion T as [| y DY Q | m g o' TG Q]; subst; [| exact (target_document m o' c TG ltac:(assumption))].
      destruct IH as (n & o & d & U & F & V & HD). exists n, o, d. split; [exact U |]. split; [exact F |]. split; [exact V |]. apply (holds_on _ b); [exact HD |].
      eapply hd_dict; [apply entry_In; exact R |]. eapply hd_array; [exact I | apply hd_here].
    - destruct T as (v & T & ->). inversion T as [| y DY Q | m g' o' TG Q]; subst. exact (target_document _ o' c TG ltac:(assumption)).
  Qed.
End Run.
Theorem chain_scripts : forall E OD fuel S pw ops file p, order_ok OD -> s_input S = Some file ->
  parse E OD fuel S pw = (ops, Ok PNone) -> load fuel E (o_objects OD) file pw (new_parser file) = Ok (None, p) -> offsets_ok (pxref p) ->
  forall h a b, of_document E file p h -> action_of E file p h a -> chained E file p a b ->
    (forall u, uri_of E file p b u -> In (OpEv (EWrite FURLs (u ++ [x0a]))) ops) /\
    (forall s, script_of E file p b s -> In (OpEv (EWrite FJavascript (s ++ [x0a]))) ops).
Proof.
  intros E OD fuel S pw ops file p OK SI P L O h a b D A C. pose proof (proj1 (tidy_load file fuel E (o_objects OD) pw _ _ _ (new_sound file) L)) as W.
  destruct (chained_document E file p W O a b (action_document E file p W O h a D A) C) as (n & o & d & U & F & V & H).
  exact (parse_uris E OD fuel S pw ops file p OK SI P L O n o d b U F V H).
Qed.
