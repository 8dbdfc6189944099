(** AttachP.v -- what extraction writes for certain about files, forms and addresses (C66-C70). *)
From Verif Require Import Base BaseP Msg Reader ReaderP Num Lexer Obj ReadObj Env Getters Crypt GetObj Font Page Tree Output Render Extract Load Parse
  RelP GetObjP SpecRead FetchP LookP SecurityP CryptObjP TreeP LoadInvP OutP OutTopP RawP ExtractP SourceP SpecFetch SpecLook SpecTree SpecOut SpecSource.
From Coq Require Import Strings.String Sorting.Permutation.
Local Open Scope x_scope.

Lemma NoDup_left : forall A (a b : list A), NoDup (a ++ b) -> NoDup a.
Proof. induction a as [| x a IH]; intros b H; [constructor |]. cbn [app] in H. apply NoDup_cons_iff in H. destruct H as [N H]. constructor; [| eapply IH; exact H]. intros I. apply N, in_or_app. auto. Qed.
Lemma NoDup_right : forall A (a b : list A), NoDup (a ++ b) -> NoDup b.
Proof. induction a as [| x a IH]; intros b H; [exact H |]. cbn [app] in H. apply NoDup_cons_iff in H. apply IH, H. Qed.
Lemma NoDup_apart : forall A (a b : list A) x, NoDup (a ++ b) -> In x a -> In x b -> False.
Proof. induction a as [| y a IH]; intros b x H I J; [destruct I |]. cbn [app] in H. apply NoDup_cons_iff in H. destruct H as [N H]. destruct I as [-> | I]; [apply N, in_or_app; auto | eapply IH; eassumption]. Qed.

Section Must.
  Variables (E : env) (OD : order) (file : bytes) (fuel : nat) (p : pst).
  Hypothesis OK : order_ok OD.
  Hypothesis W : reads file p.
  Hypothesis O : offsets_ok (pxref p).
  Let rs := Resolve fuel E file.

  (** ** name trees *)
  Definition known_tree {A} (m : M (A * list Z)) (l : A) (s ns : list Z) : Prop :=
    got file p m (fun r q => (fst r = l /\ forall n, In n (snd r) -> In n s \/ In n ns) /\ kept file p q).
  Lemma known_array : forall d k l, array_at E file p d k l ->
    got file p (d_array rs d (lit k)) (fun r q => (fst r = l /\ (snd r = false -> l = [])) /\ kept file p q).
  Proof.
    intros d k l A. eapply got_weaken; [apply (array_got E file fuel p W O) |]. intros [b ok] q [R K]. split; [| exact K].
    assert (Q : b = l) by (eapply array_at_det; [exact (answer_or _ _ _ _ _ _ _ _ R) | exact A]). split; [exact Q |]. cbn [snd]. intros ->.
    destruct R as [[_ Z0] | [_ Z0]]; [discriminate |]. injection Z0 as ->. symmetry. exact Q.
  Qed.
  Lemma trees_known : 
    (forall d ns l, names_below E file p d ns l -> forall f s, NoDup ns -> (forall n, In n ns -> ~ In n s) -> known_tree (name_tree rs f d s) l s ns) /\
    (forall ks ns l, names_in E file p ks ns l -> forall f pre acc s, NoDup ns -> (forall n, In n ns -> ~ In n s) ->
       known_tree (name_kids rs f (List.length ks) (zlen pre) (pre ++ ks) acc s) (acc ++ l) s ns).
  Proof.
    apply names_mut.
    - intros d l0 ks ns l H0 H1 _ IH f s N D. destruct f as [| f]; [intros ? ? ? ? X; discriminate X |]. cbn [name_tree].
      eapply got_bind; [apply known_array; exact H0 |]. intros [names ok] [Q Q']. cbn [fst snd] in *. subst names.
      assert (B : (if ok then l0 else []) = l0) by (destruct ok; [reflexivity | symmetry; apply Q'; reflexivity]). cbv zeta. rewrite B.
      eapply got_bind; [apply known_array; exact H1 |]. intros [kids ok'] [R R']. cbn [fst snd] in *. subst kids. destruct ok'.
      + apply (IH f [] l0 s N D).
      + assert (ks = []) by (apply R'; reflexivity). subst ks. pose proof (IH 1%nat [] l0 s N D) as G. exact G.
    - intros f pre acc s _ _. destruct f as [| f]; [intros ? ? ? ? X; discriminate X |]. cbn [name_kids List.length]. apply got_ret. intros q K. split; [| exact K].
      rewrite app_nil_r. split; [reflexivity |]. intros n I. left. exact I.
    - intros x ks d n1 l1 n2 l2 R Nd _ IH1 _ IH2 f pre acc s N D. destruct f as [| f]; [intros ? ? ? ? X; discriminate X |]. cbn [name_kids List.length]. rewrite zget_mid.
      assert (Q : match x with ORef n _ => Some n | _ => None end = None) by (destruct x; try reflexivity; exfalso; eapply R; reflexivity).
      cbv zeta. rewrite Q. eapply got_bind; [apply (el_dict_got E file fuel p W O) |]. intros [kid ok] A. apply answer_or in A. cbn [fst] in A.
      assert (EL : element (pre ++ x :: ks) (zlen pre) = Some x) by (rewrite <- zget_element; apply zget_mid). rewrite EL in A.
      assert (kid = d) by (eapply typed_or_det; [apply is_dict_fun | exact A | exact Nd]). subst kid.
      eapply got_bind; [apply IH1; [eapply NoDup_left; exact N | intros n I; apply D, in_or_app; auto] |]. intros [l s1] [Q1 Q2]. cbn [fst snd] in *. subst l.
      replace (pre ++ x :: ks) with ((pre ++ [x]) ++ ks) by (rewrite <- app_assoc; reflexivity). rewrite <- zlen_snoc with (x := x).
      eapply got_weaken; [apply (IH2 f (pre ++ [x]) (acc ++ l1) s1) |].
      + eapply NoDup_right; exact N.
      + intros n I J. destruct (Q2 _ J) as [J' | J']; [apply (D n); [apply in_or_app; auto | exact J'] | eapply NoDup_apart; eassumption].
      + intros r q [[A1 A2] K]. split; [| exact K]. rewrite A1, app_assoc. split; [reflexivity |]. intros n I. rewrite in_app_iff. destruct (A2 n I) as [J | J]; [destruct (Q2 _ J); auto | auto].
    - intros m g ks d n1 l1 n2 l2 Nd _ IH1 _ IH2 f pre acc s N D. apply NoDup_cons_iff in N. destruct N as [Nm N].
      destruct f as [| f]; [intros ? ? ? ? X; discriminate X |]. cbn [name_kids List.length]. rewrite zget_mid. cbv beta iota zeta.
      assert (ZM : zmem m s = false) by (apply zmem_not, D; left; reflexivity). rewrite ZM.
      eapply got_bind; [apply (el_dict_got E file fuel p W O) |]. intros [kid ok] A. apply answer_or in A. cbn [fst] in A.
      assert (EL : element (pre ++ ORef m g :: ks) (zlen pre) = Some (ORef m g)) by (rewrite <- zget_element; apply zget_mid). rewrite EL in A.
      assert (kid = d) by (eapply typed_or_det; [apply is_dict_fun | exact A | exact Nd]). subst kid.
      eapply got_bind; [apply IH1; [eapply NoDup_left; exact N |] |].
      { intros n I [<- | J]; [apply Nm, in_or_app; auto | apply (D n); [right; apply in_or_app; auto | exact J]]. }
      intros [l s1] [Q1 Q2]. cbn [fst snd] in *. subst l.
      replace (pre ++ ORef m g :: ks) with ((pre ++ [ORef m g]) ++ ks) by (rewrite <- app_assoc; reflexivity). rewrite <- zlen_snoc with (x := ORef m g).
      eapply got_weaken; [apply (IH2 f (pre ++ [ORef m g]) (acc ++ l1) s1) |].
      + eapply NoDup_right; exact N.
      + intros n I J. destruct (Q2 _ J) as [[<- | J'] | J']; [apply Nm, in_or_app; auto | apply (D n); [right; apply in_or_app; auto | exact J'] | eapply NoDup_apart; eassumption].
      + intros r q [[A1 A2] K]. split; [| exact K]. rewrite A1, app_assoc. split; [reflexivity |]. intros n I. cbn [In]. rewrite in_app_iff.
        destruct (A2 n I) as [J | J]; [destruct (Q2 _ J) as [[J' | J'] | J']; auto | auto].
  Qed.
  Lemma pairs_known : forall d k prs, pairs_of E file p d k prs -> got file p (name_tree_map rs fuel d (lit k)) (fun r q => r = flat prs /\ kept file p q).
  Proof.
    intros d k prs (root & ns & T & B & N). unfold name_tree_map. eapply got_bind; [apply (dict_known E file fuel p W O); exact T |]. intros r ->.
    cbv beta iota. eapply got_bind; [apply (proj1 trees_known _ _ _ B); [exact N | intros n _ []] |]. intros [l s] [Q _]. cbn [fst] in Q. subst l.
    apply got_ret. intros q K. split; [reflexivity | exact K].
  Qed.
  Lemma string_el : forall l i x a, element l i = Some x -> typed E file p is_string (Some x) a -> got file p (a_string rs l i) (fun r q => r = (a, true) /\ kept file p q).
  Proof.
    intros l i x a Q T. eapply known_typed; [apply is_string_fun | apply (el_string_got E file fuel p W O) | rewrite Q; exact T].
  Qed.
  Lemma dict_el : forall l i x a, element l i = Some x -> typed E file p is_dict (Some x) a -> 
    got file p (a_string rs l i) (fun r q => r = ([], false) /\ kept file p q) /\ got file p (a_dict rs l i) (fun r q => r = (a, true) /\ kept file p q).
  Proof.
    intros l i x a Q T. split.
    - eapply known_untyped; [apply (el_string_got E file fuel p W O) | rewrite Q; eapply dict_no_string; exact T].
    - eapply known_typed; [apply is_dict_fun | apply (el_dict_got E file fuel p W O) | rewrite Q; exact T].
  Qed.
  Lemma flat_element : forall prs k x, In (k, x) prs -> exists j : nat, (2 * j + 1 < List.length (flat prs))%nat /\
    element (flat prs) (2 * Z.of_nat j) = Some k /\ element (flat prs) (1 + 2 * Z.of_nat j) = Some x.
  Proof.
    induction prs as [| [k0 x0] prs IH]; intros k x I; [destruct I |]. destruct I as [Q | I].
    - injection Q as -> ->. exists 0%nat. cbn. split; [lia |]. split; reflexivity.
    - destruct (IH _ _ I) as (j & L & A & B). exists (Datatypes.S j). cbn [flat List.length]. split; [lia |].
      assert (SH : forall (l : list obj) a b i, 0 <= i -> element (a :: b :: l) (2 + i) = element l i).
      { intros l a b i Hi. unfold element. destruct (2 + i <? 0) eqn:B1; [apply Z.ltb_lt in B1; lia |]. destruct (i <? 0) eqn:B2; [apply Z.ltb_lt in B2; lia |].
        replace (Z.to_nat (2 + i)) with (Datatypes.S (Datatypes.S (Z.to_nat i))) by lia. reflexivity. }
      replace (2 * Z.of_nat (Datatypes.S j)) with (2 + 2 * Z.of_nat j) by lia. replace (1 + (2 + 2 * Z.of_nat j)) with (2 + (1 + 2 * Z.of_nat j)) by lia.
      rewrite !SH by lia. auto.
  Qed.

  (** ** the loops *)
  Definition embedded_step (l : list obj) (i : Z) (rest : X unit) : X unit :=
    '(f, ok) <- xlift (a_string rs l i) ;;
    (if ok : bool then xout [manifest_line unknownHash f]
     else '(f, ok) <- xlift (a_dict rs l i) ;; if ok : bool then file_extract E rs f false else xret tt) ;;; rest.
  Lemma embedded_loop_writes : forall l e j k i, i + 2 * Z.of_nat j < zlen l -> (j < k)%nat ->
    (forall rest, writes file p (embedded_step l (i + 2 * Z.of_nat j) rest) e) -> writes file p (embedded_loop E rs k i l) e.
  Proof.
    intros l e. induction j as [| j IH]; intros k i L LE H; destruct k as [| k]; try lia; cbn [embedded_loop].
    - replace (i + 2 * Z.of_nat 0) with i in * by lia. apply Z.ltb_lt in L. rewrite L. apply H.
    - assert (L0 : (i <? zlen l) = true) by (apply Z.ltb_lt; lia). rewrite L0.
      apply writes_right; [apply xstill_lift, (getters_stay fuel E file) |]. intros [f ok]. apply writes_right.
      + destruct ok; [apply xstill_out |]. apply xstill_bind; [apply xstill_lift, (getters_stay fuel E file) |]. intros [f' ok']. destruct ok'; [apply file_extract_still | apply xstill_ret].
      + intros _. apply IH; [lia | lia |]. replace (i + 2 + 2 * Z.of_nat j) with (i + 2 * Z.of_nat (Datatypes.S j)) by lia. exact H.
  Qed.
  Definition urls_step (l : list obj) (i : Z) (rest : X unit) : X unit :=
    '(u, ok) <- xlift (a_string rs l i) ;; (if ok : bool then xout [println FURLs u] else xret tt) ;;; rest.
  Lemma urls_loop_writes : forall l e j k i, i + 2 * Z.of_nat j < zlen l -> (j < k)%nat ->
    (forall rest, writes file p (urls_step l (i + 2 * Z.of_nat j) rest) e) -> writes file p (urls_loop rs k i l) e.
  Proof.
    intros l e. induction j as [| j IH]; intros k i L LE H; destruct k as [| k]; try lia; cbn [urls_loop].
    - replace (i + 2 * Z.of_nat 0) with i in * by lia. apply Z.ltb_lt in L. rewrite L. apply H.
    - assert (L0 : (i <? zlen l) = true) by (apply Z.ltb_lt; lia). rewrite L0.
      apply writes_right; [apply xstill_lift, (getters_stay fuel E file) |]. intros [f ok]. apply writes_right.
      + destruct ok; [apply xstill_out | apply xstill_ret].
      + intros _. apply IH; [lia | lia |]. replace (i + 2 + 2 * Z.of_nat j) with (i + 2 * Z.of_nat (Datatypes.S j)) by lia. exact H.
  Qed.

  (** ** file specifications *)
  Lemma not_url : forall fs u ok, answer E file p is_string [] (entry fs (lit "FS")) (u, ok) -> ~ is_url E file p fs -> bseq u (lit "URL") = false.
  Proof.
    intros fs u ok A N. destruct (bseq u (lit "URL")) eqn:B; [| reflexivity]. exfalso. apply bseq_eq in B. subst u. apply N. destruct A as [[T _] | [_ Z0]]; [exact T | discriminate].
  Qed.
  Lemma carries_writes : forall fs c name data e, carries E file p fs name data -> In e (dump_file E name data) -> writes file p (file_extract E rs fs c) e.
  Proof.
    intros fs c name data e (N & ef & T & D & NA) I. unfold file_extract. eapply writes_about; [apply (string_got E file fuel p W O) |]. intros [u ok] A.
    rewrite (not_url _ _ _ A N). eapply writes_known; [apply (dict_known E file fuel p W O); exact T |]. cbv beta iota.
    eapply writes_known; [apply (stream_known E file fuel p W O); exact D |]. cbv beta iota. destruct NA as [T' | [U ->]].
    - eapply writes_known; [apply (string_known E file fuel p W O); exact T' |]. cbv beta iota. apply writes_out. exact I.
    - eapply writes_known; [apply (string_known_not E file fuel p W O); exact U |]. cbv beta iota. apply writes_out. exact I.
  Qed.
  Lemma names_writes : forall fs c f, names_file E file p fs f -> writes file p (file_extract E rs fs c) (manifest_line unknownHash f).
  Proof.
    intros fs c f (F & U & N). unfold file_extract. eapply writes_about; [apply (string_got E file fuel p W O) |]. intros [u ok] A.
    rewrite (not_url _ _ _ A) by (intros X; exact (U _ X eq_refl)). eapply writes_known; [apply (dict_known_not E file fuel p W O); exact N |]. cbv beta iota.
    eapply writes_about; [apply (string_got E file fuel p W O) |]. intros [par ok'] _. destruct ok'.
    - eapply writes_known; [apply (string_known E file fuel p W O); exact F |]. cbv beta iota. apply writes_out. left. reflexivity.
    - eapply writes_known; [apply (string_known E file fuel p W O); exact F |]. cbv beta iota. apply writes_out. apply in_or_app. right. left. reflexivity.
  Qed.
  Lemma url_writes : forall fs c u, is_url E file p fs -> typed E file p is_string (entry fs (lit "F")) u -> writes file p (file_extract E rs fs c) (println FURLs u).
  Proof.
    intros fs c u U T. unfold file_extract. eapply writes_known; [apply (string_known E file fuel p W O); exact U |]. cbv beta iota.
    change (bseq (lit "URL") (lit "URL")) with true. cbv iota. eapply writes_known; [apply (string_known E file fuel p W O); exact T |]. cbv beta iota. apply writes_out. left. reflexivity.
  Qed.
  (** what is written for each file specification is written for the attached ones *)
  Lemma action_file_writes : forall a fs e, file_of E file p a fs -> (forall c, writes file p (file_extract E rs fs c) e) -> writes file p (action_extract E rs a) e.
  Proof.
    intros a fs e F H. unfold action_extract. apply writes_right; [apply xstill_lift, (getters_stay fuel E file) |]. intros [s ok]. cbv zeta. destruct F as [fs T | fs T].
    - eapply writes_known; [apply (string_known_not E file fuel p W O); eapply dict_no_string; exact T |]. cbv beta iota. apply writes_left.
      eapply writes_known; [apply (dict_known E file fuel p W O); exact T |]. cbv beta iota. apply H.
    - apply writes_right; [apply xstill_lift, (getters_stay fuel E file) |]. intros [f' ok1]. apply writes_right.
      { destruct ok1; [apply xstill_out |]. apply xstill_bind; [apply xstill_lift, (getters_stay fuel E file) |]. intros [f'' ok']. destruct ok'; [apply file_extract_still | apply xstill_ret]. }
      intros _. eapply writes_known; [apply (dict_known E file fuel p W O); exact T |]. cbv beta iota. apply H.
  Qed.
  Lemma action_name_writes : forall a f, typed E file p is_string (entry a (lit "F")) f -> writes file p (action_extract E rs a) (manifest_line unknownHash f).
  Proof.
    intros a f T. unfold action_extract. apply writes_right; [apply xstill_lift, (getters_stay fuel E file) |]. intros [s ok]. cbv zeta.
    eapply writes_known; [apply (string_known E file fuel p W O); exact T |]. cbv beta iota. apply writes_left. apply writes_out. left. reflexivity.
  Qed.
  Lemma embedded_here : forall st d e, writes file p (embedded_files E rs fuel d) e -> writes file p (extract_here E OD rs fuel st d) e.
  Proof.
    intros st d e H. unfold extract_here.
    apply writes_right; [apply action_at_still | intros _]. apply writes_right; [apply action_at_still | intros _].
    apply writes_right; [apply additional_actions_still; exact OK | intros _]. apply writes_right; [apply forms_still | intros _]. apply writes_left. exact H.
  Qed.
  Lemma forms_here : forall st d e, writes file p (forms E rs d) e -> writes file p (extract_here E OD rs fuel st d) e.
  Proof.
    intros st d e H. unfold extract_here.
    apply writes_right; [apply action_at_still | intros _]. apply writes_right; [apply action_at_still | intros _].
    apply writes_right; [apply additional_actions_still; exact OK | intros _]. apply writes_left. exact H.
  Qed.
  Lemma urls_here : forall st d e, writes file p (urls_tree rs fuel d) e -> writes file p (extract_here E OD rs fuel st d) e.
  Proof.
    intros st d e H. unfold extract_here.
    apply writes_right; [apply action_at_still | intros _]. apply writes_right; [apply action_at_still | intros _].
    apply writes_right; [apply additional_actions_still; exact OK | intros _]. apply writes_right; [apply forms_still | intros _].
    apply writes_right; [apply embedded_files_still | intros _]. apply writes_right; [apply javascript_still | intros _].
    apply writes_right; [apply page_text_of_still | intros _]. apply writes_right; [apply uris_still | intros _]. exact H.
  Qed.
  Lemma tree_value_writes : forall d prs k x e, pairs_of E file p d "EmbeddedFiles" prs -> In (k, x) prs ->
    (forall l i rest, element l i = Some x -> writes file p (embedded_step l i rest) e) -> writes file p (embedded_files E rs fuel d) e.
  Proof.
    intros d prs k x e PR I H. unfold embedded_files. eapply writes_known; [apply pairs_known; exact PR |]. cbv beta.
    destruct (flat_element _ _ _ I) as (j & L & _ & B). eapply (embedded_loop_writes _ _ j); [unfold zlen; lia | lia |]. intros rest. apply H. exact B.
  Qed.
  Lemma attached_writes : forall st d fs e, attached E file p d fs -> (forall c, writes file p (file_extract E rs fs c) e) -> writes file p (extract_here E OD rs fuel st d) e.
  Proof.
    intros st d fs e A H. destruct A as [a fs AC F | prs k x fs PR I T].
    - eapply (actions_writes E OD file fuel p OK W O); [exact AC |]. eapply action_file_writes; eassumption.
    - apply embedded_here. eapply tree_value_writes; [exact PR | exact I |]. intros l i rest Q. destruct (dict_el _ _ _ _ Q T) as [A B]. unfold embedded_step.
      eapply writes_known; [exact A |]. cbv beta iota. apply writes_left. eapply writes_known; [exact B |]. cbv beta iota. apply H.
  Qed.
  Lemma outside_writes : forall st d f, outside E file p d f -> writes file p (extract_here E OD rs fuel st d) (manifest_line unknownHash f).
  Proof.
    intros st d f H. destruct H as [a f AC T | fs f AT N | prs k x f PR I T].
    - eapply (actions_writes E OD file fuel p OK W O); [exact AC |]. apply action_name_writes. exact T.
    - eapply attached_writes; [exact AT |]. intros c. apply names_writes. exact N.
    - apply embedded_here. eapply tree_value_writes; [exact PR | exact I |]. intros l i rest Q. unfold embedded_step.
      eapply writes_known; [eapply string_el; eassumption |]. cbv beta iota. apply writes_left. apply writes_out. left. reflexivity.
  Qed.
  Lemma listed_url_writes : forall st d u, listed_url E file p d u -> writes file p (extract_here E OD rs fuel st d) (println FURLs u).
  Proof.
    intros st d u H. destruct H as [prs k x u PR I T | fs u AT U T].
    - apply urls_here. unfold urls_tree. eapply writes_known; [apply pairs_known; exact PR |]. cbv beta. destruct (flat_element _ _ _ I) as (j & L & A & _).
      eapply (urls_loop_writes _ _ j); [unfold zlen; lia | lia |]. intros rest. unfold urls_step.
      eapply writes_known; [eapply string_el; [| exact T]; exact A |]. cbv beta iota. apply writes_left. apply writes_out. left. reflexivity.
    - eapply attached_writes; [exact AT |]. intros c. apply url_writes; assumption.
  Qed.

  (** ** forms *)
  Lemma referred_det : forall x s s', referred E file p x s -> referred E file p x s' -> s = s'.
  Proof.
    intros x s s' (n & g & o & -> & T & ->) (n' & g' & o' & Q & T' & ->). injection Q as <- <-. assert (o = o') by (eapply target_det; eassumption). subst. reflexivity.
  Qed.
  Lemma joined_det : forall l s s', joined E file p l s -> joined E file p l s' -> s = s'.
  Proof.
    intros l s s' J. revert s'. induction J as [| x l s t R J IH | x l t N J IH]; intros s' J'; inversion J'; subst; try reflexivity.
    - f_equal; [eapply referred_det; eassumption | apply IH; assumption].
    - exfalso. destruct R as (n & g & o & Q & _). eapply H1. exact Q.
    - exfalso. destruct H1 as (n & g & o & Q & _). eapply N. exact Q.
    - apply IH. assumption.
  Qed.
  Lemma forms_write : forall d data e, form_of E file p d data -> In e (dump_file E (lit "form.xml") data) -> writes file p (forms E rs d) e.
  Proof.
    intros d data e H I. unfold forms. eapply writes_about; [apply (stream_got E file fuel p W O) |]. intros [s ok] A. destruct H as [data R | l data Q J].
    - destruct A as [[Z0 R'] | [Z0 N]]; cbn [fst snd] in *.
      + subst ok. rewrite (referred_det _ _ _ R R') in I. apply writes_out. exact I.
      + exfalso. destruct R as (n & g & o & X & _). eapply N. exact X.
    - assert (ok = false) as -> by (destruct A as [[_ (n & g & o & X & _)] | [Z0 _]]; [rewrite Q in X; discriminate | injection Z0 as _ ->; reflexivity]). cbv iota.
      eapply writes_known.
      { eapply known_typed; [apply is_array_fun | apply (array_got E file fuel p W O) |]. exists (OArr l). split; [rewrite Q; apply v_direct; discriminate | reflexivity]. }
      cbv beta iota. eapply writes_about; [apply (xfa_got E file fuel p W O l (List.length l) 0 []); [reflexivity | constructor] |]. intros data' J'.
      rewrite (joined_det _ _ _ J J') in I. apply writes_out. exact I.
  Qed.
End Must.

(** ** The whole run *)
Section Run.
  Variables (E : env) (OD : order) (fuel : nat) (S : sys) (pw : bytes) (ops : list op) (file : bytes) (p : pst).
  Hypothesis OK : order_ok OD.
  Hypothesis I : s_input S = Some file.
  Hypothesis P : parse E OD fuel S pw = (ops, Ok PNone).
  Hypothesis L : load fuel E (o_objects OD) file pw (new_parser file) = Ok (None, p).
  Hypothesis Of : offsets_ok (pxref p).
  Lemma run_writes : forall h e, of_document E file p h -> (forall st, writes file p (extract_here E OD (Resolve fuel E file) fuel st h) e) -> In (OpEv e) ops.
  Proof. intros h e (n & o & d & U & F & V & H) X. eapply (parse_writes E OD fuel S pw ops file p OK I P L Of n o d h e); assumption. Qed.
  Lemma run_reads : reads file p.
  Proof. apply (tidy_load file fuel E (o_objects OD) pw (new_parser file) None p (new_sound file) L). Qed.
  Lemma run_carried : forall h fs name data, of_document E file p h -> attached E file p h fs -> carries E file p fs name data ->
    exists x, hexed (e_md5 E data) x /\ In (OpEv (EWrite FFiles (x ++ lit ":" ++ name ++ [x0a]))) ops /\ In (OpEv (EDump x data)) ops.
  Proof.
    intros h fs name data D A C. exists (hex_encode (e_md5 E data)). split; [apply hex_encode_ok |].
    assert (G : forall e, In e (dump_file E name data) -> In (OpEv e) ops).
    { intros e J. apply (run_writes h); [exact D |]. intros st. eapply (attached_writes E OD file fuel p OK run_reads Of); [exact A |]. intros c.
      eapply (carries_writes E file fuel p run_reads Of); [exact C | exact J]. }
    split; apply G; [left | right; left]; reflexivity.
  Qed.
  Lemma run_forms : forall h data, of_document E file p h -> form_of E file p h data ->
    exists x, hexed (e_md5 E data) x /\ In (OpEv (EWrite FFiles (x ++ lit ":form.xml" ++ [x0a]))) ops /\ In (OpEv (EDump x data)) ops.
  Proof.
    intros h data D A. exists (hex_encode (e_md5 E data)). split; [apply hex_encode_ok |].
    assert (G : forall e, In e (dump_file E (lit "form.xml") data) -> In (OpEv e) ops).
    { intros e J. apply (run_writes h); [exact D |]. intros st. apply forms_here. eapply (forms_write E file fuel p run_reads Of); [exact A | exact J]. }
    split; apply G; [left | right; left]; reflexivity.
  Qed.
  Lemma run_outside : forall h f, of_document E file p h -> outside E file p h f -> In (OpEv (EWrite FFiles (zeros ++ lit ":" ++ f ++ [x0a]))) ops.
  Proof. intros h f D A. apply (run_writes h); [exact D |]. intros st. apply (outside_writes E OD file fuel p OK run_reads Of st h f A). Qed.
  Lemma run_urls : forall h u, of_document E file p h -> listed_url E file p h u -> In (OpEv (EWrite FURLs (u ++ [x0a]))) ops.
  Proof. intros h f D A. apply (run_writes h); [exact D |]. intros st. apply (listed_url_writes E OD file fuel p OK run_reads Of st h f A). Qed.
End Run.
