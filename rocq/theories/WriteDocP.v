(** WriteDocP.v -- where the objects and the sections are in a document that
    SpecWrite gives (C90). *)
From Verif Require Import Base BaseP Msg Reader ReaderP Num NumP Lexer Plain LexerP Obj Bits Filters Env SpecLex SpecLexP SpecObj SpecObjP SpecNumP SpecFilters FiltersP SpecFetch SpecStream SpecScan ScanP SpecXref
  StreamEx SpecRecover RecoverP SpecWrite WriteP.
From Coq Require Import Strings.String Sorting.Permutation Sorting.Sorted.

Ltac apps := repeat (progress (repeat rewrite <- app_assoc; cbn [app])).

(** ** Where "obj" stands behind white space *)
Definition free_start (t : bytes) : Prop := forall b r, t = b :: r -> ~ In b (lit "obj").
Lemma xref_start : forall t, free_start (lit "xref" ++ t).
Proof. intros t b r Q. injection Q as <- _. div. Qed.
Lemma calm_skip : forall u rest p w q, calm u -> free_start rest -> ws_byte w -> u ++ rest = p ++ w :: lit "obj" ++ q ->
  exists p', p = u ++ p' /\ rest = p' ++ w :: lit "obj" ++ q.
Proof.
  induction u as [| b u IH]; intros rest p w q C N W Q; [exists p; auto |].
  destruct p as [| c p]; cbn [app] in Q; injection Q as Q1 Q2.
  - exfalso. subst b. assert (K : exists v', u = lit "obj" ++ v').
    { destruct u as [| b1 u]; cbn in Q2; [exfalso; eapply N; [exact Q2 | vm_compute; tauto] |]. injection Q2 as -> Q2.
      destruct u as [| b2 u]; cbn in Q2; [exfalso; eapply N; [exact Q2 | vm_compute; tauto] |]. injection Q2 as -> Q2.
      destruct u as [| b3 u]; cbn in Q2; [exfalso; eapply N; [exact Q2 | vm_compute; tauto] |]. injection Q2 as -> Q2. exists u. reflexivity. }
    destruct K as [v' ->]. exact (C [] w v' eq_refl W).
  - subst c. destruct (IH rest p w q (calm_cons _ _ C) N W Q2) as (p' & -> & H). exists p'. auto.
Qed.
Lemma quiet_calm : forall t, quiet t -> calm t.
Proof. intros t (_ & H & _). exact (calm_cons _ _ H). Qed.
Lemma dec_isdigit : forall n, 0 <= n -> forall b, In b (dec n) -> is_digit b = true.
Proof. intros n H. apply (nat_text_digits _ n). apply dec_text. exact H. Qed.
Lemma dec_first : forall n, 0 <= n -> exists b q, dec n = b :: q /\ is_digit b = true.
Proof.
  intros n H. pose proof (nat_text_nonnil _ _ (dec_text n H)) as N. destruct (dec n) as [| b q] eqn:Q; [contradiction |]. exists b, q. split; [reflexivity |].
  apply (dec_isdigit n H). rewrite Q. left. reflexivity.
Qed.

(** ** Comments *)
(** behind "%" a line ends before there is an "obj" *)
Definition tame (t : bytes) : Prop := forall y c z, t = y ++ "%"%byte :: c ++ lit "obj" ++ z -> In x0a c.
Lemma tame_no : forall t, ~ In "%"%byte t -> tame t.
Proof. intros t N y c z Q. exfalso. apply N. rewrite Q. apply in_or_app. right. left. reflexivity. Qed.
Lemma tame_free : forall t, ~ occurs (lit "obj") t -> tame t.
Proof. intros t N y c z Q. exfalso. apply N. exists (y ++ "%"%byte :: c), z. rewrite Q. apps. reflexivity. Qed.
Lemma split_two : forall (A : Type) (u v y z : list A), u ++ v = y ++ z -> (exists w, u = y ++ w /\ z = w ++ v) \/ exists w, y = u ++ w /\ v = w ++ z.
Proof.
  intros A. induction u as [| a u IH]; intros v y z Q; [right; exists y; auto |]. destruct y as [| b y]; [left; exists (a :: u); auto |].
  cbn [app] in Q. injection Q as <- Q. destruct (IH v y z Q) as [(w & -> & ->) | (w & -> & ->)]; [left | right]; exists w; auto.
Qed.
Lemma tame_join : forall u v, tame u -> tame v -> tame (u ++ x0a :: v).
Proof.
  intros u v U V y c z Q. destruct (split_two _ _ _ _ _ Q) as [(w & QU & Q1) | (w & QY & Q1)].
  - destruct w as [| b w]; [discriminate Q1 |]. cbn [app] in Q1. injection Q1 as <- Q1. destruct (split_two _ _ _ _ _ Q1) as [(w' & QW & Q2) | (w' & QW & Q2)].
    + destruct w' as [| b w']; [discriminate Q2 |]. rewrite QW. apply in_or_app. right. cbn [app] in Q2. injection Q2 as -> _. left. reflexivity.
    + destruct w' as [| b1 w']; [discriminate Q2 |]. destruct w' as [| b2 w']; [discriminate Q2 |]. destruct w' as [| b3 w']; [discriminate Q2 |]. cbn in Q2. injection Q2 as <- <- <- Q2.
      apply (U y c w'). rewrite QU, QW. reflexivity.
  - destruct w as [| b w]; [discriminate Q1 |]. cbn [app] in Q1. injection Q1 as <- Q1. exact (V w c z Q1).
Qed.
Definition safe (t : bytes) : Prop := tame t /\ calm (x20 :: t) /\ ~ occurs (lit "xref") t.
Lemma quiet_safe : forall t, quiet t -> safe t.
Proof. intros t (A & B & C). split; [apply tame_no; exact A | split; assumption]. Qed.
Lemma safe_join : forall u v, safe u -> safe v -> safe (u ++ x0a :: v).
Proof.
  intros u v (A & B & C) (A' & B' & C'). split; [apply tame_join; assumption |]. split; [apply (calm_join (x20 :: u)); [exact B | exact B' | vm_compute; intuition discriminate] |].
  intros O. apply occurs_split in O; [destruct O; contradiction | vm_compute; intuition discriminate | discriminate].
Qed.
Lemma coded_printable : forall d, printable (ODict d) -> ~ In (lit "Filter") (map fst d) -> printable (coded (ODict d)).
Proof.
  intros d [ND V] NF. cbn [coded printable]. split.
  - rewrite map_app. apply (Permutation_NoDup (Permutation_cons_append (map fst d) (lit "Filter"))). constructor; assumption.
  - clear ND NF. induction d as [| [k x] d IH]; cbn [app].
    + split; [apply occurs_check; vm_compute; reflexivity |]. split; [cbn; apply occurs_check; vm_compute; reflexivity | exact I].
    + destruct V as (V1 & V2 & V3). split; [exact V1 |]. split; [exact V2 | exact (IH V3)].
Qed.
Lemma has_spec : forall m t, has m t = true <-> occurs m t.
Proof.
  intros m t. split.
  - induction t as [| b t IH]; cbn [has]; intros H; apply orb_true_iff in H; destruct H as [H | H]; try discriminate H.
    1, 2: apply bseq_eq in H; exists [], (skipn (List.length m) (b :: t)) || exists [], []; cbn [app]; rewrite <- H at 1; [destruct m; [reflexivity | discriminate H] || rewrite firstn_skipn; reflexivity].
    destruct (IH H) as (x & y & ->). exists (b :: x), y. reflexivity.
  - intros (x & y & ->). induction x as [| b x IH]; cbn [app has].
    + assert (Q : firstn (List.length m) (m ++ y) = m) by (rewrite firstn_app, firstn_all, Nat.sub_diag, firstn_O; apply app_nil_r).
      destruct (m ++ y) eqn:QM; cbn [has]; rewrite Q, bseq_refl; reflexivity.
    + rewrite IH. apply orb_true_r.
Qed.
Lemma has_not : forall m t, has m t = false -> ~ occurs m t.
Proof. intros m t H O. apply has_spec in O. congruence. Qed.
Lemma raw_ok : forall s, raw s = true -> safe s /\ ~ occurs (lit "endstream") s /\ forall c, s <> c ++ [x0d].
Proof.
  intros s H. unfold raw in H. apply negb_true_iff in H. repeat (apply orb_false_iff in H; let H' := fresh "R" in destruct H as [H H']). split; [split; [| split] | split].
  - apply tame_free. exact (has_not _ _ R0).
  - intros u w v Q _. apply (has_not _ _ R0). destruct u as [| c u]; cbn [app] in Q; injection Q as Q1 Q2; [exists [], v; exact Q2 | exists (u ++ [w]), v; rewrite Q2; apps; reflexivity].
  - exact (has_not _ _ R1).
  - exact (has_not _ _ H).
  - intros c ->. rewrite last_last in R. discriminate R.
Qed.
Lemma written_value : forall o d, ival o = ODict d -> ival (as_written o) = ODict d \/ exists s, istream o = Some s /\ raw s = false /\ ival (as_written o) = coded (ODict d).
Proof. intros o d Q. unfold as_written. destruct (istream o) as [s |] eqn:QS; [| auto]. destruct (raw s) eqn:R; [auto |]. right. exists s. cbn [ival]. rewrite Q. auto. Qed.
Lemma written_printable : forall o, lay_shape o -> printable (ival (as_written o)).
Proof.
  intros o [_ _ V S]. unfold as_written. destruct (istream o) as [s |] eqn:QS; [| exact V]. destruct (raw s) eqn:R; [exact V |]. destruct (S s eq_refl) as (d & Q & NF & _). cbn [ival]. rewrite Q in *.
  apply coded_printable; [exact V | exact (NF R)].
Qed.
Lemma good_lay : forall D, (forall o, In o D -> good_object o) -> forall o, In o D -> lay_shape o.
Proof. intros D G o I. apply go_lay, G, I. Qed.
Lemma safe_value : forall o, lay_shape o -> safe (w_value o).
Proof.
  intros o Go. pose proof (written_printable o Go) as VP. destruct Go as [_ _ V S]. unfold w_value. destruct (istream o) as [s |] eqn:QS; [| apply quiet_safe, quiet_obj; exact V].
  apply safe_join; [apply quiet_safe, quiet_obj; exact VP |]. apply (safe_join (lit "stream")); [apply quiet_safe; quietc |]. apply safe_join; [| apply quiet_safe; quietc]. unfold w_data. destruct (raw s) eqn:R.
  - exact (proj1 (raw_ok _ R)).
  - apply quiet_safe, quiet_snoc; [apply quiet_hex | div].
Qed.
(** what follows the header *)
Definition w_after (o : iobj) : bytes := x0a :: w_value o ++ x0a :: lit "endobj" ++ [x0a].
Lemma w_object_eq : forall o, w_object o = (dec (inum o) ++ x20 :: dec (igen o)) ++ x20 :: lit "obj" ++ w_after o.
Proof. intros o. unfold w_object, w_head, w_after. apps. reflexivity. Qed.
Lemma after_calm : forall o, lay_shape o -> calm (lit "obj" ++ w_after o).
Proof.
  intros o G. unfold w_after. apply (calm_join (lit "obj") x0a); [| | div].
  - apply (calmb_ok _ false). reflexivity.
  - pose proof (safe_value o G) as V. assert (Q : safe (w_value o ++ x0a :: lit "endobj" ++ [x0a])) by (apply safe_join; [exact V | apply quiet_safe; quietc]). apply Q.
Qed.
Lemma objects_start : forall D T, (forall o, In o D -> lay_shape o) -> free_start T -> free_start (w_objects D ++ T).
Proof.
  intros [| o D] T G N b r; [apply N |]. destruct (G o (or_introl eq_refl)) as [N1 _ _ _ _]. unfold w_objects. cbn [flat_map]. rewrite w_object_eq.
  destruct (dec_first (inum o)) as (c & q & -> & Db); [lia |]. cbn [app]. intros Q. injection Q as -> _. intros I. vm_compute in I. intuition (subst; discriminate Db).
Qed.
Lemma headers_in : forall D T p w q, (forall o, In o D -> lay_shape o) -> free_start T -> ws_byte w ->
  w_objects D ++ T = p ++ w :: lit "obj" ++ q ->
  (exists D1 o D2, D = D1 ++ o :: D2 /\ p = w_objects D1 ++ dec (inum o) ++ x20 :: dec (igen o) /\ w = x20) \/ exists p', p = w_objects D ++ p' /\ T = p' ++ w :: lit "obj" ++ q.
Proof.
  induction D as [| o D IH]; intros T p w q G N W Q.
  - right. exists p. auto.
  - pose proof (G o (or_introl eq_refl)) as Go. unfold w_objects in Q. cbn [flat_map] in Q. rewrite w_object_eq, <- !app_assoc in Q. fold (w_objects D) in Q.
    set (h := dec (inum o) ++ x20 :: dec (igen o)) in *.
    assert (CH : calm h) by (apply quiet_calm; destruct Go as [N1 N2 _ _]; apply quiet_join; [eapply quiet_nat, dec_text; lia | eapply quiet_nat, dec_text; lia | div]).
    assert (NH : free_start (x20 :: lit "obj" ++ w_after o ++ w_objects D ++ T)) by (intros c r Qc; injection Qc as <- _; vm_compute; intuition discriminate).
    assert (Q0 : h ++ x20 :: lit "obj" ++ w_after o ++ w_objects D ++ T = p ++ w :: lit "obj" ++ q) by (rewrite <- Q; unfold h; apps; reflexivity).
    destruct (calm_skip h _ p w q CH NH W Q0) as (p' & -> & Q').
    destruct p' as [| c p']; cbn [app] in Q'; injection Q' as Q1 Q2.
    + left. exists [], o, D. split; [reflexivity |]. split; [cbn; rewrite app_nil_r; reflexivity | congruence].
    + assert (Q2' : (lit "obj" ++ w_after o) ++ w_objects D ++ T = p' ++ w :: lit "obj" ++ q) by (rewrite <- app_assoc; exact Q2).
      destruct (calm_skip _ _ p' w q (after_calm o Go) (objects_start D T (fun o' I => G o' (or_intror I)) N) W Q2') as (p2 & -> & Q3).
      assert (QO : forall z, w_object o ++ z = h ++ c :: (lit "obj" ++ w_after o) ++ z) by (intros z; rewrite w_object_eq; fold h; subst c; apps; reflexivity).
      destruct (IH T p2 w q (fun o' I => G o' (or_intror I)) N W Q3) as [(D1 & o' & D2 & -> & -> & ->) | (p3 & -> & QT)].
      * left. exists (o :: D1), o', D2. split; [reflexivity |]. split; [| reflexivity]. unfold w_objects at 2. cbn [flat_map]. fold (w_objects D1). rewrite <- (app_assoc (w_object o)), QO. reflexivity.
      * right. exists p3. split; [| exact QT]. unfold w_objects at 2. cbn [flat_map]. fold (w_objects D). rewrite <- (app_assoc (w_object o)), QO. reflexivity.
Qed.

(** ** Reading a header from its end *)
Lemma split_det : forall (f : byte -> bool) a b x y, (forall c, In c a -> f c = true) -> (forall c, In c b -> f c = true) ->
  (forall c r, x = c :: r -> f c = false) -> (forall c r, y = c :: r -> f c = false) -> a ++ x = b ++ y -> a = b /\ x = y.
Proof.
  intros f. induction a as [| c a IH]; intros [| d b] x y A B X Y E; cbn [app] in E.
  - auto.
  - exfalso. pose proof (X d _ E). rewrite (B d (or_introl eq_refl)) in H. discriminate.
  - exfalso. pose proof (Y c _ (eq_sym E)). rewrite (A c (or_introl eq_refl)) in H. discriminate.
  - injection E as <- E. destruct (IH b x y) as [-> ->]; auto; intros e I; [apply A | apply B]; right; assumption.
Qed.
Lemma ws_f : forall s, white s -> (forall c, In c (rev s) -> is_ws c = true) /\ forall r, exists c q, rev s ++ r = c :: q /\ is_digit c = false.
Proof.
  intros s [N W]. assert (A : forall c, In c (rev s) -> is_ws c = true) by (intros c I; apply is_ws_spec, W, in_rev; exact I). split; [exact A |]. intros r.
  destruct (rev s) as [| c q] eqn:Q; [exfalso; apply N; rewrite <- (rev_involutive s), Q; reflexivity |]. exists c, (q ++ r). split; [reflexivity |].
  pose proof (A c (or_introl eq_refl)) as H. destruct c; try discriminate H; reflexivity.
Qed.
Lemma nat_f : forall t n, nat_text t n -> (forall c, In c (rev t) -> is_digit c = true) /\ forall r, exists c q, rev t ++ r = c :: q /\ is_ws c = false.
Proof.
  intros t n H. assert (A : forall c, In c (rev t) -> is_digit c = true) by (intros c I; apply (nat_text_digits _ _ H), in_rev; exact I). split; [exact A |]. intros r.
  destruct (rev t) as [| c q] eqn:Q; [exfalso; apply (nat_text_nonnil _ _ H); rewrite <- (rev_involutive t), Q; reflexivity |]. exists c, (q ++ r). split; [reflexivity |].
  pose proof (A c (or_introl eq_refl)) as D. destruct c; try discriminate D; reflexivity.
Qed.
Lemma header_back : forall u a n s b g s' pre N G, nat_text a n -> white s -> nat_text b g -> white s' -> 0 <= N -> 0 <= G ->
  (forall c r, pre = r ++ [c] -> is_digit c = false) ->
  u ++ a ++ s ++ b ++ s' = pre ++ dec N ++ x20 :: dec G ++ [x20] -> exists x, dec N = x ++ a /\ u = pre ++ x.
Proof.
  intros u a n s b g s' pre N G A S B S' LN LG P Q. pose proof (f_equal (@rev byte) Q) as R.
  change (x20 :: dec G ++ [x20]) with ([x20] ++ dec G ++ [x20]) in R. rewrite !rev_app_distr in R. rewrite <- !app_assoc in R. change (rev [x20]) with [x20] in R.
  assert (W : white [x20]) by (split; [discriminate | intros c [<- | []]; vm_compute; tauto]).
  destruct (ws_f _ S') as [F1 _]. destruct (ws_f _ W) as [F2 F2']. destruct (nat_f _ _ B) as [F3 F3']. destruct (nat_f _ _ (dec_text G LG)) as [F4 F4']. destruct (ws_f _ S) as [F5 F5'].
  destruct (nat_f _ _ A) as [F6 F6']. destruct (nat_f _ _ (dec_text N LN)) as [F7 F7'].
  change (rev [x20]) with [x20] in F2, F2'.
  assert (T : forall (f : byte -> bool) l, (exists c q, l = c :: q /\ f c = false) -> forall c r, l = c :: r -> f c = false).
  { intros f l (c & q & -> & H) c' r' Q'. injection Q' as <- _. exact H. }
  destruct (split_det is_ws _ _ _ _ F1 F2 (T _ _ (F3' _)) (T _ _ (F4' _)) R) as [_ R1].
  destruct (split_det is_digit _ _ _ _ F3 F4 (T _ _ (F5' _)) (T _ _ (F2' _)) R1) as [_ R2].
  destruct (split_det is_ws _ _ _ _ F5 F2 (T _ _ (F6' _)) (T _ _ (F7' _)) R2) as [_ R3].
  assert (R4 : u ++ a = pre ++ dec N). { apply (f_equal (@rev byte)) in R3. rewrite !rev_app_distr, !rev_involutive in R3. exact R3. }
  clear - R4 A P.
  assert (K : exists x, (pre = u ++ x /\ a = x ++ dec N) \/ (u = pre ++ x /\ dec N = x ++ a)).
  { clear - R4. revert pre R4. induction u as [| c u IH]; intros pre R4; [exists pre; left; split; [reflexivity | exact R4] |].
    destruct pre as [| d pre]; cbn in R4; [exists (c :: u); right; split; [reflexivity | symmetry; exact R4] |]. injection R4 as <- R4.
    destruct (IH pre R4) as (x & [[-> H] | [-> H]]); exists x; [left | right]; auto. }
  destruct K as (x & [[-> Q] | [-> Q]]); [| exists x; auto]. destruct x as [| c x] using rev_ind; [exists []; split; [symmetry; exact Q | rewrite !app_nil_r; reflexivity] |].
  exfalso. assert (D : is_digit c = false) by (apply (P c (u ++ x)); rewrite app_assoc; reflexivity).
  rewrite (nat_text_digits _ _ A c) in D; [discriminate |]. rewrite Q. apply in_or_app. left. apply in_or_app. right. left. reflexivity.
Qed.

(** ** The parts of the file *)
Lemma quiet_lines : forall A (f : A -> bytes) l v, (forall x, In x l -> exists u, f x = u ++ [x0a] /\ quiet u) -> quiet v -> quiet (flat_map f l ++ v).
Proof.
  intros A f l v H V. induction l as [| x l IH]; [exact V |]. cbn [flat_map]. destruct (H x (or_introl eq_refl)) as (u & -> & U).
  rewrite <- app_assoc, <- app_assoc. cbn [app]. apply quiet_join; [exact U | | div]. apply IH. intros y I. apply H. right. exact I.
Qed.
Lemma object_line : forall o, lay_shape o -> exists u, w_object o = u ++ [x0a] /\ tame u /\ ~ occurs (lit "xref") u.
Proof.
  intros o G. pose proof (safe_value o G) as V. destruct G as [N1 N2 _ _]. exists (w_head o ++ x0a :: w_value o ++ x0a :: lit "endobj"). split; [unfold w_object; apps; reflexivity |].
  assert (K : safe (w_value o ++ x0a :: lit "endobj")) by (apply safe_join; [exact V | apply quiet_safe; quietc]).
  assert (QH : quiet (dec (inum o) ++ x20 :: dec (igen o))) by (apply quiet_join; [eapply quiet_nat, dec_text; lia | eapply quiet_nat, dec_text; lia | div]).
  assert (QW : w_head o = (dec (inum o) ++ x20 :: dec (igen o)) ++ x20 :: lit "obj") by (unfold w_head; apps; reflexivity). split.
  - apply tame_join; [| apply K]. apply tame_no. rewrite QW. intros I. apply in_app_or in I. destruct I as [I | I]; [exact (proj1 QH I) | vm_compute in I; intuition discriminate].
  - intros O. apply occurs_split in O; [| vm_compute; intuition discriminate | discriminate]. destruct O as [O | O]; [| exact (proj2 (proj2 K) O)]. rewrite QW in O.
    apply occurs_split in O; [| vm_compute; intuition discriminate | discriminate]. destruct O as [O | O]; [exact (proj2 (proj2 QH) O) | revert O; apply occurs_check; vm_compute; reflexivity].
Qed.
Lemma objects_tame : forall D v, (forall o, In o D -> lay_shape o) -> tame v -> tame (w_objects D ++ v).
Proof.
  induction D as [| o D IH]; intros v G V; [exact V |]. unfold w_objects. cbn [flat_map]. destruct (object_line o (G o (or_introl eq_refl))) as (u & -> & T & _). rewrite <- !app_assoc. cbn [app].
  apply tame_join; [exact T |]. apply (IH v); [intros o' I; apply G; right; exact I | exact V].
Qed.
Lemma objects_xref : forall D, (forall o, In o D -> lay_shape o) -> ~ occurs (lit "xref") (w_objects D).
Proof.
  induction D as [| o D IH]; intros G; [intros (a & b & Q); destruct a; discriminate Q |]. unfold w_objects. cbn [flat_map]. destruct (object_line o (G o (or_introl eq_refl))) as (u & -> & _ & T). rewrite <- !app_assoc. cbn [app].
  intros O. apply occurs_split in O; [| vm_compute; intuition discriminate | discriminate]. destruct O as [O | O]; [exact (T O) |]. revert O. apply IH. intros o' I. apply G. right. exact I.
Qed.
Lemma pad_quiet : forall k n, (0 < k)%nat -> 0 <= n < 10 ^ Z.of_nat k -> quiet (dec_pad k n).
Proof. intros k n K B. eapply quiet_nat, dec_pad_text; assumption. Qed.
Lemma line_line : forall off gen use, 0 <= off < 10 ^ 10 -> 0 <= gen <= 65535 -> quiet use -> exists u, w_line off gen use = u ++ [x0a] /\ quiet u.
Proof.
  intros off gen use B1 B2 U. exists (dec_pad 10 off ++ x20 :: dec_pad 5 gen ++ x20 :: use ++ [x20]). split.
  - unfold w_line. apps. reflexivity.
  - apply quiet_join; [apply pad_quiet; [lia | exact B1] | | div]. apply quiet_join; [apply pad_quiet; [lia | cbn; lia] | | div]. apply quiet_snoc; [exact U | div].
Qed.
(** entries that can be written *)
Definition good_place (p : Z * iobj) : Prop := 0 <= fst p < 10 ^ 10 /\ lay_shape (snd p).
Lemma sub_line : forall p, good_place p -> exists u, w_sub p = u ++ [x0a] /\ quiet u.
Proof.
  intros [off o] [B G]. cbn [fst snd] in *. destruct G as [N1 N2 _ _]. destruct (line_line off (igen o) (lit "n") B N2) as (u & Q & U); [quietc |].
  exists (dec (inum o) ++ x20 :: lit "1" ++ x0a :: u). unfold w_sub. cbn [fst snd]. rewrite Q. split.
  - apps. reflexivity.
  - apply quiet_join; [eapply quiet_nat, dec_text; lia | | div]. apply (quiet_join (lit "1") x0a); [quietc | exact U | div].
Qed.
Lemma table_quiet : forall l v, (forall p, In p l -> good_place p) -> quiet v -> quiet (w_table l ++ v).
Proof.
  intros l v G V. unfold w_table. destruct (line_line 0 65535 (lit "f")) as (u & Q & U); [lia | lia | quietc |]. rewrite Q. repeat rewrite <- app_assoc. cbn [app].
  apply (quiet_join (lit "0 1") x0a); [quietc | | div]. repeat rewrite <- app_assoc. cbn [app]. apply quiet_join; [exact U | | div].
  apply quiet_lines; [intros p I; apply sub_line, G, I | exact V].
Qed.
Lemma break_cases : forall t, w_break t = [x20; x0a] \/ w_break t = [x0a].
Proof. intros t. unfold w_break. destruct (_ =? _); auto. Qed.
(** from the table to "start" *)
Definition w_middle (l : list (Z * iobj)) (tr : dict) : bytes :=
  x0a :: w_table l ++ lit "trailer" ++ w_break (lit "xref" ++ x0a :: w_table l ++ lit "trailer") ++ w_obj (ODict tr) ++ x0a :: lit "start".
Lemma middle_quiet : forall l tr, (forall p, In p l -> good_place p) -> printable (ODict tr) -> quiet (w_middle l tr).
Proof.
  intros l tr G P. unfold w_middle. apply quiet_cons; [| div]. apply table_quiet; [exact G |].
  assert (K : quiet (w_obj (ODict tr) ++ x0a :: lit "start")) by (apply quiet_join; [apply quiet_obj; exact P | quietc | div]).
  destruct (break_cases (lit "xref" ++ x0a :: w_table l ++ lit "trailer")) as [-> | ->].
  - apply (quiet_join (lit "trailer") x20); [quietc | apply quiet_cons; [exact K | div] | div].
  - apply (quiet_join (lit "trailer") x0a); [quietc | exact K | div].
Qed.
Definition w_last (off : Z) : bytes := x0a :: dec off ++ x0a :: lit "%%EOF" ++ [x0a].
Definition w_tail (D : list iobj) (tr : dict) : bytes :=
  lit "xref" ++ w_middle (w_places (zlen w_version) D) tr ++ lit "xref" ++ w_last (zlen (w_body D)).
Lemma document_parts : forall D tr, w_document D tr = w_version ++ w_objects D ++ w_tail D tr.
Proof.
  intros D tr. unfold w_document, w_body, w_tail, w_middle, w_xref, w_end, w_last. apps. reflexivity.
Qed.
Lemma last_calm : forall off, 0 <= off -> calm (x20 :: w_last off).
Proof.
  intros off B. unfold w_last. apply (calm_join [x20] x0a); [apply (calmb_ok _ false); reflexivity | | div].
  apply (calm_join (x20 :: dec off) x0a); [| apply (calmb_ok _ false); reflexivity | div].
  pose proof (quiet_nat _ _ (dec_text off B)) as Q. apply Q.
Qed.
Lemma calm_next : forall m, calm (x20 :: x0a :: m) -> calm (x20 :: m).
Proof.
  intros m M u w v Q. destruct u as [| a u]; cbn in Q; injection Q as Q1 Q2; [exfalso; subst; refine (M [x20] x0a v eq_refl _); vm_compute; tauto |].
  subst. apply (M (x20 :: x0a :: u) w v). reflexivity.
Qed.
Lemma tail_calm : forall D tr, (forall p, In p (w_places (zlen w_version) D) -> good_place p) -> printable (ODict tr) -> calm (w_tail D tr).
Proof.
  intros D tr G P. unfold w_tail. pose proof (middle_quiet _ tr G P) as M. pose proof (last_calm (zlen (w_body D)) (zlen_nonneg _ _)) as L.
  assert (M' : exists m, w_middle (w_places (zlen w_version) D) tr = x0a :: m) by (eexists; unfold w_middle; reflexivity). destruct M' as [m Q]. rewrite Q in M. rewrite Q. cbn [app].
  apply (calm_join (lit "xref") x0a); [apply (calmb_ok _ false); reflexivity | | div].
  destruct M as (_ & M & _). apply calm_next in M.
  apply (calm_join (x20 :: m) "x"%byte (lit "ref" ++ w_last (zlen (w_body D))) M); [| div].
  change (x20 :: lit "ref" ++ w_last (zlen (w_body D))) with ((x20 :: lit "ref") ++ w_last (zlen (w_body D))). unfold w_last in *. apply calm_next in L.
  apply (calm_join (x20 :: lit "ref") x0a); [apply (calmb_ok _ false); reflexivity | exact L | div].
Qed.

(** ** The headers are the only markers *)
Lemma not_in_first : forall (c : byte) (M R u v : bytes), ~ In c M -> M ++ R = u ++ c :: v -> exists u', u = M ++ u' /\ R = u' ++ c :: v.
Proof.
  intros c M R. induction M as [| b M IH]; intros u v N Q; [exists u; auto |]. destruct u as [| d u]; cbn in Q; injection Q as Q1 Q2.
  - exfalso. apply N. left. exact Q1.
  - subst d. destruct (IH u v) as (u' & -> & H); [intros I; apply N; right; exact I | exact Q2 |]. exists u'. auto.
Qed.
Lemma tail_tame : forall D tr, (forall p, In p (w_places (zlen w_version) D) -> good_place p) -> printable (ODict tr) -> tame (w_tail D tr).
Proof.
  intros D tr G P. assert (Q : w_tail D tr = (lit "xref" ++ w_middle (w_places (zlen w_version) D) tr ++ lit "xref" ++ x0a :: dec (zlen (w_body D))) ++ x0a :: lit "%%EOF" ++ [x0a]) by (unfold w_tail, w_last; apps; reflexivity).
  rewrite Q. apply tame_join; [apply tame_no | apply tame_free, occurs_check; vm_compute; reflexivity].
  pose proof (middle_quiet _ tr G P) as (M & _ & _). pose proof (quiet_nat _ _ (dec_text _ (zlen_nonneg _ (w_body D)))) as (QN & _ & _).
  intros I. apply in_app_or in I. destruct I as [I | I]; [vm_compute in I; intuition discriminate |]. apply in_app_or in I. destruct I as [I | I]; [exact (M I) |].
  apply in_app_or in I. destruct I as [I | I]; [vm_compute in I; intuition discriminate |]. destruct I as [I | I]; [discriminate I | exact (QN I)].
Qed.
Lemma before_tame : forall D T, (forall o, In o D -> lay_shape o) -> tame T -> tame (w_version ++ w_objects D ++ T).
Proof.
  intros D T G TT. unfold w_version. rewrite <- app_assoc. apply (tame_join (lit "%PDF-1.7")); [apply tame_free, occurs_check; vm_compute; reflexivity |].
  apply objects_tame; assumption.
Qed.
Lemma document_tame : forall D tr, (forall o, In o D -> lay_shape o) -> (forall p, In p (w_places (zlen w_version) D) -> good_place p) -> printable (ODict tr) -> tame (w_document D tr).
Proof.
  intros D tr G GP P. rewrite document_parts. apply before_tame; [exact G | apply tail_tame; assumption].
Qed.
Lemma places_split : forall D off k o, In (k, o) (w_places off D) <-> exists D1 D2, D = D1 ++ o :: D2 /\ k = off + zlen (w_objects D1).
Proof.
  induction D as [| o' D IH]; intros off k o; cbn [w_places].
  - split; [intros [] | intros (D1 & D2 & Q & _); destruct D1; discriminate Q].
  - split.
    + intros [Q | I]; [injection Q as <- <-; exists [], D; split; [reflexivity | cbn; lia] |]. apply IH in I. destruct I as (D1 & D2 & -> & ->). exists (o' :: D1), D2. split; [reflexivity |].
      unfold w_objects. cbn [flat_map]. rewrite zlen_app. lia.
    + intros (D1 & D2 & Q & ->). destruct D1 as [| o1 D1]; cbn in Q; injection Q as <- Q; [left; f_equal; cbn; lia |]. right. apply IH. exists D1, D2. split; [exact Q |].
      unfold w_objects. cbn [flat_map]. rewrite zlen_app. lia.
Qed.
Lemma isdigit_dec : forall b, is_digit b = true -> exists d, decdigit b d.
Proof.
  intros b H. exists (Z.to_nat (bv b - 48)). apply decdigit_spec. split; [exact H |]. assert (48 <= bv b) by (destruct b; try discriminate H; vm_compute; discriminate). lia.
Qed.
Lemma body_end : forall D c r, w_version ++ w_objects D = r ++ [c] -> c = x0a.
Proof.
  intros D c r Q. assert (K : exists x, w_version ++ w_objects D = x ++ [x0a]).
  { destruct D as [| o D _] using rev_ind; [exists (lit "%PDF-1.7"); cbn; reflexivity |]. unfold w_objects. rewrite flat_map_app. cbn [flat_map]. rewrite app_nil_r.
    exists (w_version ++ flat_map w_object D ++ w_head o ++ x0a :: w_value o ++ x0a :: lit "endobj"). unfold w_object. apps. reflexivity. }
  destruct K as [x K]. rewrite K in Q. apply app_inj_tail in Q. symmetry. apply Q.
Qed.
Lemma body_last : forall D, exists x, w_version ++ w_objects D = x ++ [x0a].
Proof.
  intros D. destruct (w_version ++ w_objects D) as [| c x _] eqn:Q using rev_ind; [discriminate Q |]. pose proof (body_end D c x Q) as ->. exists x. reflexivity.
Qed.
Lemma sep_tail : forall s, sep s -> (exists s1 w, s = s1 ++ [w] /\ ws_byte w /\ (s1 = [] \/ sep s1)) \/ exists x c, s = x ++ "%"%byte :: c /\ forall b, In b c -> ~ eol_byte b.
Proof.
  induction 1 as [b W | c C | s t S IS T IT].
  - left. exists [], b. auto.
  - right. exists [], c. auto.
  - destruct IT as [(t1 & w & -> & W & [-> | T1]) | (x & c & -> & C)].
    + left. exists s, w. auto.
    + left. exists (s ++ t1), w. split; [apps; reflexivity |]. split; [exact W |]. right. apply sep_app; assumption.
    + right. exists (s ++ x), c. split; [apps; reflexivity | exact C].
Qed.
(** a comment does not reach from an earlier line to digits *)
Lemma no_comment_end : forall pre z y c b, (pre = [] \/ exists x, pre = x ++ [x0a]) -> ~ In "%"%byte z -> ~ In x0a b ->
  pre ++ z = y ++ "%"%byte :: c ++ b -> In x0a c.
Proof.
  intros pre z y c b PE NZ NB Q. destruct (split_two _ _ _ _ _ Q) as [(w & QP & Q1) | (w & _ & Q1)]; [| exfalso; apply NZ; rewrite Q1; apply in_or_app; right; left; reflexivity].
  destruct w as [| d w]; [exfalso; apply NZ; cbn in Q1; rewrite <- Q1; left; reflexivity |]. cbn [app] in Q1. injection Q1 as <- Q1.
  assert (I : In x0a w).
  { destruct PE as [-> | [x ->]]; [destruct y; discriminate QP |]. assert (K : exists w', w = w' ++ [x0a]).
    { destruct w as [| d w0 _] using rev_ind; [| exists w0; replace (y ++ "%"%byte :: w0 ++ [d]) with ((y ++ "%"%byte :: w0) ++ [d]) in QP by (apps; reflexivity); apply app_inj_tail in QP; destruct QP as [_ <-]; reflexivity].
      exfalso. apply app_inj_tail in QP. destruct QP as [_ QP]. discriminate QP. }
    destruct K as [w' ->]. apply in_or_app. right. left. reflexivity. }
  assert (J : In x0a (c ++ b)) by (rewrite Q1; apply in_or_app; left; exact I). apply in_app_or in J. destruct J as [J | J]; [exact J | contradiction].
Qed.

Lemma digits_no : forall n c, 0 <= n -> is_digit c = false -> ~ In c (dec n).
Proof. intros n c B D I. apply (dec_isdigit n B) in I. congruence. Qed.
Lemma last_digit : forall n, 0 <= n -> exists x c, dec n = x ++ [c] /\ is_digit c = true.
Proof.
  intros n B. destruct (dec n) as [| c x _] eqn:Q using rev_ind; [exfalso; exact (nat_text_nonnil _ _ (dec_text n B) Q) |]. exists x, c. split; [reflexivity |]. apply (dec_isdigit n B). rewrite Q. apply in_or_app. right. left. reflexivity.
Qed.
(** the separators in front of "obj", seen from the end *)
Lemma white_seps : forall u a n s b g s' pre N G, nat_text a n -> sep s -> nat_text b g -> sep s' -> 0 <= N -> 0 <= G -> (pre = [] \/ exists x, pre = x ++ [x0a]) ->
  (forall x c, s' = x ++ "%"%byte :: c -> In x0a c) ->
  u ++ a ++ s ++ b ++ s' = pre ++ dec N ++ x20 :: dec G ++ [x20] -> white s /\ white s'.
Proof.
  intros u a n s b g s' pre N G A S B S' LN LG PE CM Q.
  assert (EOL : eol_byte x0a) by (vm_compute; tauto).
  assert (ND1 : ~ In "%"%byte (dec N ++ [x20])). { intros I. apply in_app_or in I. destruct I as [I | [I | []]]; [revert I; apply digits_no; [exact LN | reflexivity] | discriminate I]. }
  assert (ND2 : ~ In "%"%byte (dec N ++ x20 :: dec G)). { intros I. apply in_app_or in I. destruct I as [I | [I | I]]; [revert I; apply digits_no; [exact LN | reflexivity] | discriminate I | revert I; apply digits_no; [exact LG | reflexivity]]. }
  assert (ND3 : ~ In "%"%byte (dec N)) by (apply digits_no; [exact LN | reflexivity]).
  assert (NB : ~ In x0a b) by (intros I; apply (nat_text_digits _ _ B) in I; discriminate I).
  destruct (last_digit G LG) as (xg & cg' & QG & DG). destruct (last_digit N LN) as (xn & cn & QN & DN).
  (* the separator in front of "obj" *)
  destruct (sep_tail s' S') as [(s1 & w & -> & W & T1) | (x & c & -> & C)]; [| exfalso; apply (C x0a); [exact (CM x c eq_refl) | exact EOL]].
  assert (Q1 : (u ++ a ++ s ++ b ++ s1) ++ [w] = (pre ++ dec N ++ x20 :: dec G) ++ [x20]) by (repeat rewrite <- app_assoc; cbn [app]; repeat rewrite <- app_assoc in Q; rewrite Q; reflexivity).
  apply app_inj_tail in Q1. destruct Q1 as [Q1 ->].
  assert (E1 : s1 = []).
  { destruct T1 as [T1 | T1]; [exact T1 |]. exfalso. destruct (sep_tail s1 T1) as [(s2 & w & -> & W2 & _) | (x & c & -> & C)].
    - rewrite QG in Q1. assert (Q2 : (u ++ a ++ s ++ b ++ s2) ++ [w] = (pre ++ dec N ++ x20 :: xg) ++ [cg']) by (repeat rewrite <- app_assoc; cbn [app]; repeat rewrite <- app_assoc in Q1; rewrite Q1; reflexivity).
      apply app_inj_tail in Q2. destruct Q2 as [_ ->]. apply is_ws_spec in W2. destruct (digit_not_ws _ DG). congruence.
    - apply (C x0a); [| exact EOL]. apply (no_comment_end pre (dec N ++ x20 :: dec G) (u ++ a ++ s ++ b ++ x) c [] PE ND2); [intros [] |]. rewrite app_nil_r, <- Q1. apps. reflexivity. }
  subst s1. clear T1. rewrite app_nil_r in Q1.
  split; [| split; [discriminate | intros c [<- | []]; exact W]].
  (* the separator between the numbers *)
  assert (PB : forall x c, s = x ++ "%"%byte :: c -> In x0a c).
  { intros x c ->. apply (no_comment_end pre (dec N ++ x20 :: dec G) (u ++ a ++ x) c b PE ND2 NB). rewrite <- Q1. apps. reflexivity. }
  destruct (sep_tail s S) as [(s1 & w & -> & W2 & T1) | (x & c & -> & C)]; [| exfalso; apply (C x0a); [exact (PB x c eq_refl) | exact EOL]].
  assert (Q2 : rev b ++ w :: rev (u ++ a ++ s1) = rev (dec G) ++ x20 :: rev (pre ++ dec N)).
  { pose proof (f_equal (@rev byte) Q1) as R. replace (u ++ a ++ (s1 ++ [w]) ++ b) with ((u ++ a ++ s1) ++ w :: b) in R by (apps; reflexivity). replace (pre ++ dec N ++ x20 :: dec G) with ((pre ++ dec N) ++ x20 :: dec G) in R by (apps; reflexivity).
    clear - R. set (X := u ++ a ++ s1) in *. set (Y := pre ++ dec N) in *. clearbody X Y. rewrite !rev_app_distr in R. cbn [rev] in R. rewrite <- !app_assoc in R. exact R. }
  destruct (split_det is_digit (rev b) (rev (dec G)) (w :: rev (u ++ a ++ s1)) (x20 :: rev (pre ++ dec N))) as [_ Q3].
  { intros c I. apply (nat_text_digits _ _ B), in_rev. exact I. }
  { intros c I. apply (dec_isdigit G LG), in_rev. exact I. }
  { intros c q QQ. injection QQ as <- _. destruct (is_digit w) eqn:DW; [| reflexivity]. apply is_ws_spec in W2. destruct (digit_not_ws _ DW). congruence. }
  { intros c q QQ. injection QQ as <- _. reflexivity. }
  { exact Q2. }
  injection Q3 as -> Q3. apply (f_equal (@rev byte)) in Q3. rewrite !rev_involutive in Q3.
  assert (E1 : s1 = []).
  { destruct T1 as [T1 | T1]; [exact T1 |]. exfalso. destruct (sep_tail s1 T1) as [(s2 & w & -> & W3 & _) | (x & c & -> & C)].
    - rewrite QN in Q3. assert (Q4 : (u ++ a ++ s2) ++ [w] = (pre ++ xn) ++ [cn]) by (repeat rewrite <- app_assoc; exact Q3).
      apply app_inj_tail in Q4. destruct Q4 as [_ ->]. apply is_ws_spec in W3. destruct (digit_not_ws _ DN). congruence.
    - apply (C x0a); [| exact EOL]. apply (no_comment_end pre (dec N) (u ++ a ++ x) c [] PE ND3); [intros [] |]. rewrite app_nil_r, <- Q3. apps. reflexivity. }
  subst s1. split; [discriminate | intros c [<- | []]; exact W2].
Qed.
Lemma markers_tail : forall D T, (forall o, In o D -> lay_shape o) -> free_start T -> calm T -> tame T ->
  only_at (w_version ++ w_objects D ++ T) (map fst (w_places (zlen w_version) D)).
Proof.
  intros D T G NT CT TT i (B & t & r & Z0 & M). set (file := w_version ++ w_objects D ++ T) in *. inversion M as [a n s b g s' A S B0 S' QT]; subst t.
  pose proof (ztake_zdrop _ i file (proj1 B)) as F. set (u := ztake i file) in *. rewrite Z0 in F.
  assert (LU : zlen u = i). { assert (zlen (u ++ (a ++ s ++ b ++ s' ++ lit "obj") ++ r) = zlen file) by (rewrite F; reflexivity). rewrite zlen_app, <- Z0, zdrop_len in H by lia. lia. }
  assert (CM : forall x c, s' = x ++ "%"%byte :: c -> In x0a c).
  { intros x c Q. apply (before_tame D T G TT (u ++ a ++ s ++ b ++ x) c r). fold file. rewrite <- F, Q. apps. reflexivity. }
  assert (W3 : exists s2 w, s' = s2 ++ [w] /\ ws_byte w).
  { destruct (sep_tail s' S') as [(s1 & w & Q & W & _) | (x & c & Q & C)]; [eauto | exfalso]. apply (C x0a (CM x c Q)). vm_compute. tauto. }
  destruct W3 as (s2 & w & QS & W3).
  assert (F' : w_version ++ (w_objects D ++ T) = (u ++ a ++ s ++ b ++ s2) ++ w :: lit "obj" ++ r).
  { fold file. rewrite <- F, QS. apps. reflexivity. }
  destruct (calm_skip w_version _ _ w _ ltac:(apply (calmb_ok _ false); reflexivity) (objects_start D _ G NT) W3 F') as (p' & Q1 & Q2).
  destruct (headers_in D _ p' w _ G NT W3 Q2) as [(D1 & o & D2 & QD & -> & ->) | (p2 & _ & QT)]; [| exfalso; exact (CT p2 w r QT W3)].
  assert (Go : lay_shape o) by (apply G; rewrite QD; apply in_or_app; right; left; reflexivity). destruct Go as [N1 N2 _ _].
  assert (EQ : u ++ a ++ s ++ b ++ s' = (w_version ++ w_objects D1) ++ dec (inum o) ++ x20 :: dec (igen o) ++ [x20]).
  { rewrite QS. replace (u ++ a ++ s ++ b ++ s2 ++ [x20]) with ((u ++ a ++ s ++ b ++ s2) ++ [x20]) by (apps; reflexivity). rewrite Q1. apps. reflexivity. }
  destruct (white_seps u a n s b g s' (w_version ++ w_objects D1) (inum o) (igen o) A S B0 S' ltac:(lia) ltac:(lia) (or_intror (body_last D1)) CM EQ) as [W1 W2].
  destruct (header_back u a n s b g s' (w_version ++ w_objects D1) (inum o) (igen o) A W1 B0 W2 ltac:(lia) ltac:(lia)) as (x & X1 & X2).
  { intros c r0 Q. rewrite (body_end _ _ _ Q). reflexivity. }
  { exact EQ. }
  exists (zlen (w_version ++ w_objects D1)). assert (QI : i = zlen (w_version ++ w_objects D1) + zlen x) by (rewrite <- LU, X2, zlen_app; reflexivity).
  split; [| split].
  - apply in_map_iff. exists (zlen (w_version ++ w_objects D1), o). split; [reflexivity |]. apply places_split. exists D1, D2. split; [exact QD | apply zlen_app].
  - pose proof (zlen_nonneg _ x). lia.
  - intros m Bm. destruct (zdrop_in file (zlen (w_version ++ w_objects D1)) x ((a ++ s ++ b ++ s' ++ lit "obj") ++ r) m) as (c & q & Zc & Ic).
    + apply zlen_nonneg.
    + rewrite <- F, X2. rewrite <- app_assoc. apply zdrop_app.
    + lia.
    + destruct (isdigit_dec c) as [d Dd]; [apply (dec_isdigit (inum o) ltac:(lia)); rewrite X1; apply in_or_app; left; exact Ic |]. exists c, q, d. auto.
Qed.
Theorem markers_only : forall D tr, (forall o, In o D -> lay_shape o) -> (forall p, In p (w_places (zlen w_version) D) -> good_place p) -> printable (ODict tr) ->
  only_at (w_document D tr) (map fst (w_places (zlen w_version) D)).
Proof. intros D tr G GP P. rewrite document_parts. apply markers_tail; [exact G | apply xref_start | apply tail_calm; assumption | apply tail_tame; assumption]. Qed.

(** ** The objects *)
Lemma document_at : forall D tr D1 o D2, D = D1 ++ o :: D2 -> exists r, w_document D tr = (w_version ++ w_objects D1) ++ w_object o ++ r.
Proof.
  intros D tr D1 o D2 ->. rewrite document_parts. exists (w_objects D2 ++ w_tail (D1 ++ o :: D2) tr). unfold w_objects at 1. rewrite flat_map_app. cbn [flat_map]. apps. reflexivity.
Qed.
Lemma good_places : forall D tr, lay_document D tr -> forall p, In p (w_places (zlen w_version) D) -> good_place p.
Proof.
  intros D tr LD [k o] I. pose proof (ld_objects _ _ LD) as G. pose proof (ld_size _ _ LD) as SZ. apply places_split in I. destruct I as (D1 & D2 & Q & ->). split; cbn [fst snd].
  - destruct (document_at D tr D1 o D2 Q) as [r Q2]. rewrite Q2 in SZ. rewrite !zlen_app in SZ. pose proof (zlen_nonneg _ w_version). pose proof (zlen_nonneg _ (w_objects D1)).
    pose proof (zlen_nonneg _ (w_object o)). pose proof (zlen_nonneg _ r). lia.
  - apply G. rewrite Q. apply in_or_app. right. left. reflexivity.
Qed.
Lemma dec_len : forall n, 0 <= n < 2 ^ 54 -> zlen (dec n) <= 54.
Proof.
  intros n B. unfold dec. assert (K : forall f m, zlen (dec_from f m) <= Z.of_nat f).
  { induction f as [| f IH]; intros m; [cbn; lia |]. cbn [dec_from]. rewrite zlen_app. change (zlen [dec_digit (m mod 10)]) with 1. specialize (IH (m / 10)). destruct (m <? 10); [change (zlen (@nil byte)) with 0 |]; lia. }
  specialize (K (S (Z.to_nat (Z.log2 n))) n). assert (Z.log2 n <= 53); [| pose proof (Z.log2_nonneg n); lia].
  destruct (Z.eq_dec n 0) as [-> | N]; [cbn; lia |]. assert (Z.log2 n < 54); [apply Z.log2_lt_pow2; lia | lia].
Qed.
Lemma white_sp : white [x20].
Proof. split; [discriminate | intros c [<- | []]; vm_compute; tauto]. Qed.
Lemma ws_ends : forall b r, ws_byte b -> ends_token (b :: r).
Proof. intros b r W. right. exists b, r. auto. Qed.
Lemma lf_ws : ws_byte x0a.
Proof. vm_compute. tauto. Qed.
Lemma head_header : forall o, lay_shape o -> header (w_head o) (inum o) (igen o).
Proof.
  intros o [N1 N2 _ _]. unfold w_head. change (dec (inum o) ++ x20 :: dec (igen o) ++ x20 :: lit "obj") with (dec (inum o) ++ [x20] ++ dec (igen o) ++ [x20] ++ lit "obj").
  apply hd_intro; try apply white_sp; apply dec_text; lia.
Qed.
Lemma head_len : forall o, lay_shape o -> zlen (w_head o) <= 75.
Proof.
  intros o [N1 N2 _ _]. unfold w_head. rewrite zlen_app, zlen_cons, zlen_app, zlen_cons. change (zlen (lit "obj")) with 3.
  pose proof (dec_len (inum o) ltac:(lia)). assert (zlen (dec (igen o)) <= 16); [| lia].
  clear - N2. unfold dec. assert (K : forall f m, zlen (dec_from f m) <= Z.of_nat f).
  { induction f as [| f IH]; intros m; [cbn; lia |]. cbn [dec_from]. rewrite zlen_app. change (zlen [dec_digit (m mod 10)]) with 1. specialize (IH (m / 10)). destruct (m <? 10); [change (zlen (@nil byte)) with 0 |]; lia. }
  specialize (K (S (Z.to_nat (Z.log2 (igen o)))) (igen o)). assert (Z.log2 (igen o) <= 15); [| pose proof (Z.log2_nonneg (igen o)); lia].
  destruct (Z.eq_dec (igen o) 0) as [-> | N]; [cbn; lia |]. assert (Z.log2 (igen o) < 16); [apply Z.log2_lt_pow2; lia | lia].
Qed.
Lemma coded_entry : forall d k, k <> lit "Filter" -> entry (d ++ [(lit "Filter", OName (lit "ASCIIHexDecode"))]) k = entry d k.
Proof.
  intros d k N. induction d as [| [k' v] d IH]; cbn [app entry]; [destruct (list_eq_dec Byte.byte_eq_dec k (lit "Filter")); [contradiction | reflexivity] |].
  destruct (list_eq_dec Byte.byte_eq_dec k k'); [reflexivity | exact IH].
Qed.
Lemma entry_pair : forall d k v, entry d k = Some v -> In (k, v) d.
Proof. induction d as [| [k' x] d IH]; intros k v H; cbn [entry] in H; [discriminate |]. destruct (list_eq_dec Byte.byte_eq_dec k k') as [<- | N]; [injection H as ->; left; reflexivity | right; apply IH; exact H]. Qed.
Lemma key_of_entry : forall k d v, key_of k d (Some v) -> In (k, v) d.
Proof. intros k d v (d1 & d2 & -> & _). apply in_or_app. right. left. reflexivity. Qed.
Lemma hex_back : forall s, ascii_hex_decode (hex s ++ [">"%byte]) = s.
Proof.
  intros s. destruct (hex_ok s) as (ds & H1 & H2). apply (ascii_hex_inverts (hex s) ds s [">"%byte] H1 H2). right. exists []. reflexivity.
Qed.
Lemma endobj_follows : forall o r, printable o -> may_follow o (x0a :: lit "endobj" ++ r).
Proof.
  intros o r _. assert (ET : ends_token (x0a :: lit "endobj" ++ r)) by (apply ws_ends, lf_ws). destruct o; cbn [may_follow]; auto. split; [exact ET |].
  intros n r' H. inversion H as [g1 t m g2 r2 G1 N1 G2 E2 Q1]; subst. destruct (nat_first _ _ N1) as (c & q & -> & C1 & C2).
  pose proof (nat_text_digits _ _ N1 c (or_introl eq_refl)) as DC.
  assert (P1 : p_ws (g1 ++ (c :: q) ++ g2 ++ "R"%byte :: r') = (c :: q) ++ g2 ++ "R"%byte :: r') by (rewrite gap_ws_app by exact G1; cbn [app]; apply p_ws_id; [apply beq_neq; exact C2 | exact C1]).
  rewrite Q1 in P1. change (p_ws (x0a :: lit "endobj" ++ r)) with (lit "endobj" ++ r) in P1. cbn in P1. injection P1 as <- _. discriminate DC.
Qed.
(** the text of a stream *)
Record stream_parts (o : iobj) (d : dict) (data r : bytes) : Prop := {
  sp_text : x0a :: w_value o ++ r = [x0a] ++ w_obj (ODict d) ++ [x0a] ++ lit "stream" ++ [] ++ [x0a] ++ data ++ [x0a] ++ lit "endstream" ++ r;
  sp_dict : obj_text (w_obj (ODict d)) (ODict d);
  sp_clear : ~ occurs (lit "endstream") data;
  sp_eol : eol_after data [x0a];
  sp_size : zlen (w_head o ++ [x0a] ++ w_obj (ODict d) ++ [x0a] ++ lit "stream" ++ [] ++ [x0a]) + 9 <= bufsize
}.
Lemma stream_text : forall o s, lay_shape o -> istream o = Some s -> exists d, ival (as_written o) = ODict d /\ forall r, stream_parts o d (w_data s) r.
Proof.
  intros o s Lo QS. pose proof (written_printable o Lo) as VP. pose proof (head_len o Lo) as HL. destruct (lo_stream _ Lo s QS) as (d & Q & NF & LN).
  destruct (ival (as_written o)) as [| | | | | | d'] eqn:QW; try (exfalso; destruct (written_value o d Q) as [K | (s' & _ & _ & K)]; rewrite QW in K; discriminate K).
  exists d'. split; [reflexivity |]. intros r. constructor.
  - unfold w_value. rewrite QS, QW. apps. reflexivity.
  - apply w_obj_text. exact VP.
  - unfold w_data. destruct (raw s) eqn:R; [apply (raw_ok _ R) |]. intros O.
    assert (NN : In "n"%byte (hex s ++ [">"%byte])) by (destruct O as (a & b & ->); apply in_or_app; right; vm_compute; tauto).
    apply in_app_or in NN. destruct NN as [NN | [NN | []]]; [| discriminate NN]. apply hex_chars in NN. vm_compute in NN. intuition discriminate.
  - apply ea_lf. unfold w_data. destruct (raw s) eqn:R; [apply (raw_ok _ R) |]. intros c QQ. apply app_inj_tail in QQ. destruct QQ as [_ QQ]. discriminate QQ.
  - rewrite !zlen_app. change (zlen [x0a]) with 1. change (zlen (lit "stream")) with 6. change (zlen (@nil byte)) with 0. unfold bufsize. lia.
Qed.
Lemma written_behind : forall E o r, good_object o -> behind E (w_head o) (x0a :: w_value o ++ x0a :: lit "endobj" ++ x0a :: r) (ival (as_written o)) (istream (as_written o)).
Proof.
  intros E o r [Lo S]. pose proof (head_len o Lo) as HL. destruct (istream o) as [s |] eqn:QS.
  - destruct (stream_text o s Lo QS) as (d' & QW & SP). destruct (SP (x0a :: lit "endobj" ++ x0a :: r)) as [P1 P2 P3 P4 P5]. destruct (lo_stream _ Lo s QS) as (d & Q & _ & _).
    destruct (S d ltac:(discriminate) Q) as (DT & NF & NP).
    assert (QI : istream (as_written o) = Some s) by (unfold as_written; rewrite QS; destruct (raw s); [exact QS | reflexivity]). rewrite QW, QI, P1.
    assert (C : raw s = true /\ d' = d \/ raw s = false /\ d' = d ++ [(lit "Filter", OName (lit "ASCIIHexDecode"))]).
    { unfold as_written in QW. rewrite QS in QW. destruct (raw s); [left; split; congruence |]. right. split; [reflexivity |]. cbn [ival] in QW. rewrite Q in QW. cbn [coded] in QW. congruence. }
    apply bh_stream with (fl := if raw s then [] else [OName (lit "ASCIIHexDecode")]) (pl := []); try assumption.
    + apply gap_ws; [exact lf_ws | constructor].
    + apply gap_ws; [exact lf_ws | constructor].
    + intros b [].
    + apply ws_ends, lf_ws.
    + apply eb_lf.
    + destruct C as [[C1 C2] | [C1 C2]]; rewrite C1, C2; [apply fo_none; exact NF |]. apply fo_name. exists d, []. split; [reflexivity | exact NF].
    + apply po_none. cbn [key_of]. destruct C as [[_ ->] | [_ ->]]; [exact NP |]. rewrite map_app. intros I. apply in_app_or in I. destruct I as [I | [I | []]]; [exact (NP I) | discriminate I].
    + intros x K n g ->. apply key_of_entry in K. destruct C as [[_ ->] | [_ ->]]; [exact (DT n g K) |]. apply in_app_or in K. destruct K as [K | [K | []]]; [exact (DT n g K) | discriminate K].
    + intros l QQ. destruct (raw s); discriminate QQ.
    + unfold w_data. destruct (raw s); [apply dc_nil |]. apply dc_cons with (y := Some s); [| apply dc_nil]. rewrite <- (hex_back s) at 2. apply st_hex. destruct (hex s); discriminate.
  - unfold as_written, w_value. rewrite QS. rewrite QS. change (x0a :: w_obj (ival o) ++ x0a :: lit "endobj" ++ x0a :: r) with ([x0a] ++ w_obj (ival o) ++ [x0a] ++ lit "endobj" ++ (x0a :: r)).
    pose proof (lo_value _ Lo) as V. apply bh_plain.
    + apply gap_ws; [exact lf_ws | constructor].
    + apply w_obj_text, V.
    + apply gap_ws; [exact lf_ws | constructor].
    + apply ws_ends, lf_ws.
    + apply (endobj_follows (ival o) (x0a :: r) V).
    + apply ws_ends, lf_ws.
    + rewrite zlen_app. change (zlen [x0a]) with 1. unfold bufsize. lia.
Qed.
Lemma as_written_num : forall o, inum (as_written o) = inum o /\ igen (as_written o) = igen o.
Proof. intros o. unfold as_written. destruct (istream o) as [s |]; [destruct (raw s) |]; auto. Qed.
Lemma zdrop_before : forall (a : bytes) c b, zdrop (zlen (a ++ [c]) - 1) ((a ++ [c]) ++ b) = c :: b.
Proof. intros a c b. rewrite zlen_app. change (zlen [c]) with 1. replace (zlen a + 1 - 1) with (zlen a) by lia. rewrite <- app_assoc. apply zdrop_app. Qed.
Lemma value_text : forall o, exists r, w_value o = w_obj (ival (as_written o)) ++ r.
Proof.
  intros o. unfold w_value. destruct (istream o) as [s |] eqn:QS; [eexists; reflexivity |]. exists []. unfold as_written. rewrite QS, app_nil_r. reflexivity.
Qed.
Lemma lay_entry : forall o d k, lay_shape o -> ival (as_written o) = ODict d -> k <> lit "Filter" -> exists d0, ival o = ODict d0 /\ entry d k = entry d0 k.
Proof.
  intros o d k Lo Q N. unfold as_written in Q. destruct (istream o) as [s |] eqn:QS; [| eauto]. destruct (raw s); [eauto |]. destruct (lo_stream _ Lo s QS) as (d0 & Q0 & _).
  cbn [ival] in Q. rewrite Q0 in Q. cbn [coded] in Q. injection Q as <-. exists d0. split; [exact Q0 | apply coded_entry; exact N].
Qed.
Lemma lay_type : forall o d, lay_object o -> ival (as_written o) = ODict d -> entry d (lit "Type") <> Some (OName (lit "XRef")).
Proof.
  intros o d Lo QV HE. destruct (lay_entry o d (lit "Type") Lo QV ltac:(discriminate)) as (d0 & Q0 & QE). rewrite QE in HE. apply (lo_type _ Lo d0 Q0). apply entry_pair. exact HE.
Qed.
Lemma listed_text : forall o file i pre r, lay_object o -> file = (pre ++ [x0a]) ++ w_object o ++ r -> i = zlen (pre ++ [x0a]) -> listed_at file i (inum o) (igen o).
Proof.
  intros o file i pre r Lo QF ->. pose proof (lo_number _ Lo) as N1. pose proof (lo_generation _ Lo) as N2. split; [apply zlen_nonneg |]. split; [lia |]. split; [lia |]. split.
  - intros b q d _ Z0 DD. rewrite QF, zdrop_before in Z0. injection Z0 as <- _. apply decdigit_spec in DD. destruct DD. discriminate.
  - destruct (value_text o) as [v QV]. exists (w_head o), [x0a], (w_obj (ival (as_written o))), (ival (as_written o)), (v ++ x0a :: lit "endobj" ++ x0a :: r). split; [| split; [| split; [| split; [| split; [| split]]]]].
    + rewrite QF, zdrop_app. unfold w_object. rewrite QV. apps. reflexivity.
    + apply head_header. exact Lo.
    + apply gap_ws; [exact lf_ws | constructor].
    + apply w_obj_text, written_printable, Lo.
    + apply ws_ends, lf_ws.
    + rewrite zlen_app. change (zlen [x0a]) with 1. pose proof (head_len o Lo). unfold bufsize. lia.
    + intros d Q. apply (lay_type o d Lo Q).
Qed.
Lemma written_listed : forall D tr k o, lay_document D tr -> In (k, o) (w_places (zlen w_version) D) -> listed_at (w_document D tr) k (inum o) (igen o).
Proof.
  intros D tr k o LD I. apply places_split in I. destruct I as (D1 & D2 & Q & ->). destruct (document_at D tr D1 o D2 Q) as [r QD]. destruct (body_last D1) as [x QX]. rewrite <- zlen_app, QX. rewrite QX in QD.
  eapply listed_text; [| exact QD | reflexivity]. apply (ld_objects _ _ LD). rewrite Q. apply in_or_app. right. left. reflexivity.
Qed.
Lemma written_at : forall E D tr k o, good_document D tr -> In (k, o) (w_places (zlen w_version) D) -> object_at E (w_document D tr) k (as_written o).
Proof.
  intros E D tr k o GD I. apply places_split in I. destruct I as (D1 & D2 & Q & ->). destruct (document_at D tr D1 o D2 Q) as [r QD].
  assert (Go : good_object o) by (apply (gd_objects _ _ GD); rewrite Q; apply in_or_app; right; left; reflexivity).
  destruct (as_written_num o) as [A1 A2]. rewrite <- zlen_app. pose proof (lo_number _ (go_lay _ Go)) as N1. pose proof (lo_generation _ (go_lay _ Go)) as N2. split.
  - apply zlen_nonneg.
  - rewrite A1. lia.
  - rewrite A2. lia.
  - intros b q d _ Z0 DD. destruct (body_last D1) as [x QX]. rewrite QD, QX in Z0. rewrite zdrop_before in Z0. injection Z0 as <- _. apply decdigit_spec in DD. destruct DD. discriminate.
  - exists (w_head o), (x0a :: w_value o ++ x0a :: lit "endobj" ++ x0a :: r). split; [| split].
    + rewrite QD, zdrop_app. unfold w_object. apps. reflexivity.
    + rewrite A1, A2. apply head_header, go_lay. exact Go.
    + apply written_behind. exact Go.
  - intros d QV. apply (lay_type o d (go_lay _ Go) QV).
Qed.
