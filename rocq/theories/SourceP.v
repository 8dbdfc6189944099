(** SourceP.v -- everything extraction writes has a source in the document (C62-C65). *)
From Verif Require Import Base BaseP Msg Reader ReaderP Num Lexer Obj ReadObj Env Getters Crypt GetObj Font Page Tree Output Render Extract Load Parse
  RelP GetObjP SpecRead FetchP LookP SecurityP CryptObjP TreeP LoadInvP OutP OutTopP RawP ExtractP SpecFetch SpecLook SpecTree SpecOut SpecSource.
From Coq Require Import Strings.String Sorting.Permutation.
Local Open Scope x_scope.

(** ** Page text is written to contents.txt only *)
Section Text.
  Variables (E : env) (OD : order) (P : ev -> Prop).
  Hypothesis T : forall b, P (EWrite FText b).
  Definition all_say {A} (m : X A) : Prop := forall q, Forall P (fst (m q)).
  Lemma all_ret : forall A (a : A), all_say (xret a).
  Proof. intros A a q. constructor. Qed.
  Lemma all_lift : forall A (m : M A), all_say (xlift m).
  Proof. intros A m q. constructor. Qed.
  Lemma all_bind : forall A B (m : X A) (k : A -> X B), all_say m -> (forall a, all_say (k a)) -> all_say (xbind m k).
  Proof.
    intros A B m k Hm Hk q. unfold xbind. specialize (Hm q). destruct (m q) as [w [[a q1]| |]]; try exact Hm.
    specialize (Hk a q1). destruct (k a q1) as [w' r]. apply Forall_app. split; assumption.
  Qed.
  Ltac al := repeat first [match goal with |- all_say (xret _) => apply all_ret end | match goal with |- all_say (xlift _) => apply all_lift end
    | match goal with |- all_say (xbind _ _) => apply all_bind; [| intros] end
    | match goal with |- all_say (let '(_, _) := ?x in _) => destruct x end
    | match goal with |- all_say (match ?x with (_, _) => _ end) => destruct x end
    | match goal with |- all_say (if ?b then _ else _) => destruct b end].
  Lemma show_all : forall f s, all_say (show f s).
  Proof. intros f s. unfold show. apply all_bind; [apply all_lift |]. intros t q. repeat constructor; apply T. Qed.
  Lemma text_loop_all : forall fuel c fm cur, all_say (text_loop E c fm fuel cur).
  Proof.
    induction fuel as [| n IH]; intros c fm cur; cbn [text_loop]; [intros q; constructor |].
    apply all_bind; [apply all_lift |]. intros [[cmd ops] e]. destruct e; al; try apply IH; apply show_all.
  Qed.
  Lemma contents_loop_all : forall fuel c fm, all_say (contents_loop E c fm fuel).
  Proof.
    induction fuel as [| n IH]; intros c fm; cbn [contents_loop]; [intros q; constructor |].
    apply all_bind; [apply all_lift |]. intros [[cmd ops] e]. destruct e; al; try apply IH; apply text_loop_all.
  Qed.
  Lemma page_text_all : forall fuel fm c, Forall P (fst (page_text fuel E fm c)).
  Proof.
    intros fuel fm c. unfold page_text. pose proof (contents_loop_all fuel c fm (new_parser c)) as H.
    destruct (contents_loop E c fm fuel (new_parser c)) as [w [[a q]| |]]; exact H.
  Qed.
  Lemma contents_array_all : forall rs fuel k i fm a, all_say (contents_array E rs fuel k i fm a).
  Proof.
    induction k as [| k IH]; intros i fm a; cbn [contents_array]; [apply all_ret |]. apply all_bind; [apply all_lift |].
    intros [c ok]. apply all_bind; [| intros _; apply IH]. destruct ok; [| apply all_ret]. intros q. apply page_text_all.
  Qed.
  Lemma page_extract_all : forall rs fuel st d, all_say (page_extract E OD rs fuel st d).
  Proof. intros. unfold page_extract. al; try (intros q; apply page_text_all). apply contents_array_all. Qed.
  Lemma pages_loop_all : forall rs fuel l st i, all_say (pages_loop E OD rs fuel st i l).
  Proof. induction l as [| d l IH]; intros st i; cbn [pages_loop]; [apply all_ret |]. apply all_bind; [apply page_extract_all | intros _; apply IH]. Qed.
  Lemma page_text_of_all : forall rs fuel st d, all_say (page_text_of E OD rs fuel st d).
  Proof. intros. unfold page_text_of. apply all_bind; [apply all_lift | intros [l ok]; destruct ok; [apply pages_loop_all | apply all_ret]]. Qed.
End Text.

Section Says.
  Variables (E : env) (OD : order) (file : bytes) (fuel : nat) (p : pst).
  Hypothesis OK : order_ok OD.
  Hypothesis W : reads file p.
  Hypothesis O : offsets_ok (pxref p).
  Let rs := Resolve fuel E file.

  (** all that is written, however the run ends *)
  Definition says {A} (P : ev -> Prop) (m : X A) : Prop := forall q, kept file p q -> Forall P (fst (m q)).

  Section Rules.
    Variable P : ev -> Prop.
    Lemma says_ret : forall A (a : A), says P (xret a).
    Proof. intros A a q K. constructor. Qed.
    Lemma says_out : forall w, Forall P w -> says P (xout w).
    Proof. intros w H q K. exact H. Qed.
    Lemma says_emits : forall A (m : X A), (forall q, Forall P (fst (m q))) -> says P m.
    Proof. intros A m H q K. apply H. Qed.
    Lemma says_bind : forall A B (m : X A) (k : A -> X B), calm file m -> says P m -> (forall a, says P (k a)) -> says P (xbind m k).
    Proof.
      intros A B m k C H1 H2 q K. specialize (H1 q K). unfold xbind. destruct (m q) as [w [[a q1]| |]] eqn:R; cbn [fst] in *; try exact H1.
      pose proof (H2 a q1 (calm_kept file p _ _ C _ _ _ _ K R)) as H3. destruct (k a q1) as [w' r]. apply Forall_app. split; assumption.
    Qed.
    Lemma says_about : forall A B (m : M A) (k : A -> X B) (Q : A -> Prop), got file p m (fun r q => Q r /\ kept file p q) ->
      (forall a, Q a -> says P (k a)) -> says P (xbind (xlift m) k).
    Proof.
      intros A B m k Q G H q K. unfold xbind, xlift. destruct (m q) as [[a q1]| |] eqn:R; try constructor. destruct (G _ _ _ K R) as [HQ K1].
      pose proof (H a HQ q1 K1) as H3. destruct (k a q1) as [w' r]. exact H3.
    Qed.
    Lemma says_seq : forall l, (forall m, In m l -> calm file m /\ says P m) -> says P (xseq l).
    Proof.
      induction l as [| m l IH]; intros H; [apply says_ret |]. cbn [xseq]. destruct (H m (or_introl eq_refl)) as [C S1].
      apply says_bind; [exact C | exact S1 |]. intros _. apply IH. intros m' I. apply H. right. exact I.
    Qed.
  End Rules.
  Lemma says_weaken : forall A (P Q : ev -> Prop) (m : X A), (forall e, P e -> Q e) -> says P m -> says Q m.
  Proof. intros A P Q m H S1 q K. eapply Forall_impl; [exact H | apply S1; exact K]. Qed.

  (** ** getters *)
  Lemma array_got : forall d k, got file p (d_array rs d k) (fun r q => answer E file p is_array [] (entry d k) r /\ kept file p q).
  Proof. intros. apply (d_typed_got E file p W O is_array [] as_array array_classifies is_array_dec). Qed.
  Lemma el_dict_got : forall d k, got file p (a_dict rs d k) (fun r q => answer E file p is_dict [] (element d k) r /\ kept file p q).
  Proof. intros. apply (a_typed_got E file p W O is_dict [] as_dict dict_classifies is_dict_dec). Qed.
  Lemma el_string_got : forall d k, got file p (a_string rs d k) (fun r q => answer E file p is_string [] (element d k) r /\ kept file p q).
  Proof. intros. apply (a_typed_got E file p W O is_string [] as_string string_classifies is_string_dec). Qed.
  Definition stream_answer (x : option obj) (r : option bytes * bool) : Prop :=
    (snd r = true /\ referred E file p x (stream_bytes (fst r))) \/ (r = (Some [], false) /\ no_reference x).
  Lemma stream_got : forall d k, got file p (d_stream rs d k) (fun r q => stream_answer (entry d k) r /\ kept file p q).
  Proof.
    intros d k. unfold d_stream. rewrite dget_entry. destruct (entry d k) as [[| | | |n g| |]|] eqn:Q;
      try (apply got_ret; intros q K; split; [right; split; [reflexivity | intros n' g' X; congruence] | exact K]).
    eapply got_bind; [apply (target_got E file p W O) |]. intros o T. apply got_ret. intros q K. split; [| exact K]. left. split; [reflexivity |].
    exists n, g, o. split; [reflexivity |]. split; [exact T | reflexivity].
  Qed.
  Lemma el_stream_got : forall d k, got file p (a_stream rs d k) (fun r q => stream_answer (element d k) r /\ kept file p q).
  Proof.
    intros d k. unfold a_stream. rewrite zget_element. destruct (element d k) as [[| | | |n g| |]|] eqn:Q;
      try (apply got_ret; intros q K; split; [right; split; [reflexivity | intros n' g' X; congruence] | exact K]).
    eapply got_bind; [apply (target_got E file p W O) |]. intros o T. apply got_ret. intros q K. split; [| exact K]. left. split; [reflexivity |].
    exists n, g, o. split; [reflexivity |]. split; [exact T | reflexivity].
  Qed.

  (** ** name trees *)
  Lemma answer_or : forall A (is : obj -> A -> Prop) zero x r, answer E file p is zero x r -> typed_or E file p is x zero (fst r).
  Proof. intros A is zero x [a ok] [[T _] | [U Q]]; cbn [fst snd] in *; [left; exact T | right; split; [exact U | congruence]]. Qed.
  Lemma value_none : forall y, value E file p None y -> y = None.
  Proof. intros y V. inversion V. reflexivity. Qed.
  Lemma empty_array : forall k l, array_at E file p [] k l -> l = [].
  Proof.
    intros k l [(v & V & _) | [_ Q]]; [| exact Q]. exfalso. assert (N : entry [] (lit k) = None) by reflexivity. rewrite N in V. apply value_none in V. discriminate.
  Qed.
  Lemma of_tree_nil : forall d, of_tree E file p d [].
  Proof. intros d. exists []. split; [reflexivity | constructor]. Qed.
  Lemma of_tree_app : forall d a b, of_tree E file p d a -> of_tree E file p d b -> of_tree E file p d (a ++ b).
  Proof. intros d a b (la & -> & FA) (lb & -> & FB). exists (la ++ lb). rewrite concat_app. split; [reflexivity |]. apply Forall_app. split; assumption. Qed.
  Lemma of_tree_kid : forall d ks k e l, array_at E file p d "Kids" ks -> In k ks -> node E file p k e -> of_tree E file p e l -> of_tree E file p d l.
  Proof.
    intros d ks k e l A I N (ls & -> & F). exists ls. split; [reflexivity |]. eapply Forall_impl; [| exact F]. intros a (n & T & B). exists n. split; [| exact B].
    eapply tn_kid; eassumption.
  Qed.
  Lemma empty_of_tree : forall l, of_tree E file p [] l -> l = [].
  Proof.
    intros l (ls & -> & F). induction F as [| a ls (n & T & B) F IH]; [reflexivity |]. cbn [List.concat]. rewrite IH, app_nil_r.
    inversion T; subst; [eapply empty_array; exact B |]. match goal with H : array_at _ _ _ [] "Kids" _ |- _ => apply empty_array in H; subst end. contradiction.
  Qed.
  Lemma element_In : forall (l : list obj) i x, element l i = Some x -> In x l.
  Proof. intros l i x H. unfold element in H. destruct (i <? 0); [discriminate |]. eapply nth_error_In. exact H. Qed.
  Lemma trees_got : forall f,
    (forall d s, got file p (name_tree rs f d s) (fun r q => of_tree E file p d (fst r) /\ kept file p q)) /\
    (forall k i kids acc s (P : list obj -> Prop), P acc ->
       (forall a l x d, P a -> In x kids -> node E file p x d -> of_tree E file p d l -> P (a ++ l)) ->
       got file p (name_kids rs f k i kids acc s) (fun r q => P (fst r) /\ kept file p q)).
  Proof.
    induction f as [| f [IH1 IH2]]; [split; intros; intros ? ? ? ? X; discriminate X |]. split.
    - intros d s. cbn [name_tree]. eapply got_bind; [apply array_got |]. intros [names ok] A. apply answer_or in A. cbn [fst] in A.
      assert (B : of_tree E file p d (if ok then names else [])).
      { destruct ok; [| apply of_tree_nil]. exists [names]. split; [symmetry; apply app_nil_r |]. constructor; [| constructor]. exists d. split; [constructor | exact A]. }
      eapply got_bind; [apply array_got |]. intros [kids ok'] A'. apply answer_or in A'. cbn [fst] in A'. destruct ok'.
      + apply IH2; [exact B |]. intros a l x e Ha I N T. apply of_tree_app; [exact Ha | eapply of_tree_kid; eassumption].
      + apply got_ret. intros q K. split; [exact B | exact K].
    - intros k i kids acc s P HA HK. cbn [name_kids]. destruct k as [| k]; [apply got_ret; intros q K; split; assumption |].
      destruct (match match zget kids i with Some (ORef n _) => Some n | _ => None end with Some n => zmem n s | None => false end); [apply IH2; assumption |].
      eapply got_bind; [apply el_dict_got |]. intros [kid ok] A. apply answer_or in A. cbn [fst] in A. eapply got_bind; [apply IH1 |]. intros [l s'] HL. cbn [fst] in HL.
      apply IH2; [| exact HK]. destruct (element kids i) as [y |] eqn:Q.
      + eapply HK; [exact HA | eapply element_In; exact Q | exact A | exact HL].
      + assert (kid = []) by (destruct A as [(v & V & _) | [_ Z0]]; [apply value_none in V; discriminate | exact Z0]). subst kid. apply empty_of_tree in HL. subst l. rewrite app_nil_r. exact HA.
  Qed.
  (** what GetNameTreeMap returns *)
  Definition tree_list (d : dict) (k : string) (l : list obj) : Prop :=
    l = [] \/ exists root, typed E file p is_dict (entry d (lit k)) root /\ of_tree E file p root l.
  Lemma tree_map_got : forall d k, got file p (name_tree_map rs fuel d (lit k)) (fun l q => tree_list d k l /\ kept file p q).
  Proof.
    intros d k. unfold name_tree_map. eapply got_bind; [apply (dict_got E file fuel p W O) |]. intros [root ok] A. destruct ok.
    - eapply got_bind; [apply (proj1 (trees_got fuel)) |]. intros [l s] HL. apply got_ret. intros q K. split; [| exact K]. right.
      exists root. split; [destruct A as [[T _] | [_ Z0]]; [exact T | discriminate] | exact HL].
    - apply got_ret. intros q K. split; [left; reflexivity | exact K].
  Qed.
  Lemma tree_key : forall d k l x i, tree_list d k l -> element l (2 * Z.of_nat i) = Some x -> key_in E file p d k x.
  Proof.
    intros d k l x i [-> | (root & T & H)] Q; unfold element in Q; destruct (2 * Z.of_nat i <? 0); try discriminate; replace (Z.to_nat (2 * Z.of_nat i)) with (2 * i)%nat in Q by lia.
    - destruct (2 * i)%nat; discriminate.
    - exists root, l, i. auto.
  Qed.
  Lemma tree_value : forall d k l x i, tree_list d k l -> element l (1 + 2 * Z.of_nat i) = Some x -> value_in E file p d k x.
  Proof.
    intros d k l x i [-> | (root & T & H)] Q; unfold element in Q; destruct (1 + 2 * Z.of_nat i <? 0); try discriminate; replace (Z.to_nat (1 + 2 * Z.of_nat i)) with (2 * i + 1)%nat in Q by lia.
    - destruct (2 * i + 1)%nat; discriminate.
    - exists root, l, i. auto.
  Qed.
  Ltac tnames A := destruct A as [[?T _] | [?U ?Z0]]; cbn [fst snd] in *; [| try discriminate].

  (** ** the pieces of extract *)
  Lemma hexed_hash : forall data, hexed (e_md5 E data) (hex_encode (e_md5 E data)).
  Proof. intros data. apply hex_encode_ok. Qed.
  Lemma dump_told : forall d name data, embedded E file p d name data -> Forall (told E file p d) (dump_file E name data).
  Proof.
    intros d name data H. unfold dump_file, manifest_line. constructor; [| constructor; [| constructor]].
    - eapply td_dump_line; [exact H | apply hexed_hash].
    - eapply td_dump; [exact H | apply hexed_hash].
  Qed.
  Lemma external_told : forall d f, external E file p d f -> told E file p d (manifest_line unknownHash f).
  Proof. intros d f H. apply (td_external E file p d f H). Qed.
  Lemma typed_not_url : forall fs u ok, answer E file p is_string [] (entry fs (lit "FS")) (u, ok) -> bseq u (lit "URL") = false ->
    ~ is_url E file p fs /\ forall u', typed E file p is_string (entry fs (lit "FS")) u' -> u' <> lit "URL".
  Proof.
    intros fs u ok A B.
    assert (H : forall u', typed E file p is_string (entry fs (lit "FS")) u' -> u' <> lit "URL").
    { intros u' T Q. destruct A as [[T' _] | [U _]]; cbn [fst] in *.
      - assert (u = u') by (eapply typed_det; [apply is_string_fun | exact T' | exact T]). subst. discriminate.
      - eapply typed_untyped; eassumption. }
    split; [| exact H]. intros U. exact (H _ U eq_refl).
  Qed.
  Lemma file_says : forall d fs c, mentioned E file p d fs ->
    (c = true -> exists a, action_of E file p d a /\ launch E file p a /\ file_of E file p a fs) ->
    says (told E file p d) (file_extract E rs fs c).
  Proof.
    intros d fs c ME CO. unfold file_extract. eapply says_about; [apply (string_got E file fuel p W O) |]. intros [u ok] A.
    destruct (bseq u (lit "URL")) eqn:B.
    - apply bseq_eq in B. subst u. assert (U : is_url E file p fs) by (destruct A as [[T _] | [_ Z0]]; [exact T | discriminate]).
      eapply says_about; [apply (string_got E file fuel p W O) |]. intros [f ok'] A'. destruct ok'; [| apply says_ret].
      apply says_out. constructor; [| constructor]. apply td_url. eapply uo_file; [exact ME | exact U |]. destruct A' as [[T _] | [_ Z0]]; [exact T | discriminate].
    - destruct (typed_not_url _ _ _ A B) as [NU NU']. eapply says_about; [apply (dict_got E file fuel p W O) |]. intros [ef ok'] A'. destruct ok'.
      + assert (T : typed E file p is_dict (entry fs (lit "EF")) ef) by (destruct A' as [[T _] | [_ Z0]]; [exact T | discriminate]).
        eapply says_about; [apply stream_got |]. intros [data ok2] A2. eapply says_about; [apply (string_got E file fuel p W O) |]. intros [f ok3] A3.
        apply says_out. apply dump_told. eapply em_file; [exact ME | exact NU | exact T | |].
        * destruct A3 as [[T3 Z3] | [U3 Z3]]; cbn [fst snd] in *; [subst ok3; left; exact T3 |]. right. split; [exact U3 |]. injection Z3 as -> ->. reflexivity.
        * destruct A2 as [[_ R] | [Z2 N]]; [left; exact R | right]. split; [exact N |]. injection Z2 as -> _. reflexivity.
      + assert (N : untyped E file p is_dict (entry fs (lit "EF"))) by (destruct A' as [[_ Z0] | [U _]]; [discriminate | exact U]).
        eapply says_about; [apply (string_got E file fuel p W O) |]. intros [par ok2] A2. destruct ok2.
        * eapply says_about; [apply (string_got E file fuel p W O) |]. intros [f ok3] A3. destruct ok3; [| apply says_ret].
          assert (F : names_file E file p fs f) by (split; [destruct A3 as [[T3 _] | [_ Z3]]; [exact T3 | discriminate] | split; assumption]).
          apply says_out. constructor; [apply external_told; eapply ex_file; eassumption |]. constructor; [| constructor].
          assert (PQ : f ++ lit " " ++ par ++ [x0a] = (f ++ lit " " ++ par) ++ [x0a]) by (rewrite <- !app_assoc; reflexivity). rewrite PQ.
          apply td_command. eapply cl_parameters; [exact ME | exact F |]. destruct A2 as [[T2 _] | [_ Z2]]; [exact T2 | discriminate].
        * eapply says_about; [apply (string_got E file fuel p W O) |]. intros [f ok3] A3. destruct ok3; [| apply says_ret].
          assert (F : names_file E file p fs f) by (split; [destruct A3 as [[T3 _] | [_ Z3]]; [exact T3 | discriminate] | split; assumption]).
          apply says_out. apply Forall_app. split; [| constructor; [apply external_told; eapply ex_file; eassumption | constructor]].
          destruct c; [| constructor]. constructor; [| constructor]. destruct (CO eq_refl) as (a & AC & LA & FO).
          assert (PQ : f ++ lit " " ++ par ++ [x0a] = (f ++ lit " " ++ par) ++ [x0a]) by (rewrite <- !app_assoc; reflexivity). rewrite PQ.
          apply td_command. eapply cl_launch; [exact AC | exact LA | exact FO | exact F |]. right.
          destruct A2 as [[_ Z2] | [U2 Z2]]; [discriminate |]. split; [exact U2 |]. injection Z2 as ->. reflexivity.
  Qed.
  Lemma action_says : forall d a, action_of E file p d a -> says (told E file p d) (action_extract E rs a).
  Proof.
    intros d a AC. unfold action_extract. eapply says_about; [apply (name_got E file fuel p W O) |]. intros [s ok] A. cbv zeta.
    assert (CO : ok && bseq s (lit "Launch") = true -> launch E file p a).
    { intros H. apply andb_true_iff in H. destruct H as [-> B]. apply bseq_eq in B. subst s. destruct A as [[T _] | [_ Z0]]; [exact T | discriminate]. }
    eapply says_about; [apply (string_got E file fuel p W O) |]. intros [f ok1] A1. apply says_bind.
    - destruct ok1; [apply xstill_out |]. apply xstill_bind; [apply xstill_lift, d_dict_still; intros; apply Resolve_still |]. intros [f' ok'].
      destruct ok'; [apply file_extract_still | apply xstill_ret].
    - destruct ok1.
      + apply says_out. constructor; [| constructor]. apply external_told. eapply ex_action; [exact AC |]. destruct A1 as [[T _] | [_ Z0]]; [exact T | discriminate].
      + eapply says_about; [apply (dict_got E file fuel p W O) |]. intros [fs ok2] A2. destruct ok2; [| apply says_ret].
        assert (T : typed E file p is_dict (entry a (lit "F")) fs) by (destruct A2 as [[T _] | [_ Z0]]; [exact T | discriminate]).
        apply file_says; [eapply mn_action; [exact AC | apply fo_f; exact T] |]. intros H. exists a. split; [exact AC |]. split; [apply CO; exact H | apply fo_f; exact T].
    - intros _. eapply says_about; [apply (dict_got E file fuel p W O) |]. intros [fs ok2] A2. destruct ok2; [| apply says_ret].
      assert (T : typed E file p is_dict (entry a (lit "Win")) fs) by (destruct A2 as [[T _] | [_ Z0]]; [exact T | discriminate]).
      apply file_says; [eapply mn_action; [exact AC | apply fo_win; exact T] |]. intros H. exists a. split; [exact AC |]. split; [apply CO; exact H | apply fo_win; exact T].
  Qed.
  Lemma action_at_says : forall d d' k, (forall a, typed E file p is_dict (entry d' k) a -> action_of E file p d a) ->
    says (told E file p d) (action_at E rs d' k).
  Proof.
    intros d d' k H. unfold action_at. eapply says_about; [apply (dict_got E file fuel p W O) |]. intros [a ok] A. destruct ok; [| apply says_ret].
    apply action_says. apply H. destruct A as [[T _] | [_ Z0]]; [exact T | discriminate].
  Qed.
  Lemma additional_says : forall st d, says (told E file p d) (additional_actions E OD rs st d).
  Proof.
    intros st d. unfold additional_actions. eapply says_about; [apply (dict_got E file fuel p W O) |]. intros [aa ok] A. destruct ok; [| apply says_ret].
    apply says_seq. intros m I. apply in_map_iff in I. destruct I as (k & <- & I). split; [apply action_at_still |].
    apply action_at_says. intros a T. eapply ac_additional; [| | exact T].
    - destruct A as [[T' _] | [_ Z0]]; [exact T' | discriminate].
    - eapply Permutation_in; [apply Permutation_sym, (proj1 OK) | exact I].
  Qed.
  Lemma joined_app : forall l x acc, joined E file p l acc -> forall s, referred E file p (Some x) s \/ (no_reference (Some x) /\ s = []) -> joined E file p (l ++ [x]) (acc ++ s).
  Proof.
    intros l x acc H. induction H as [| y l s0 t R H IH | y l t N H IH]; intros s D; cbn [app].
    - destruct D as [R | [N ->]]; [rewrite <- (app_nil_r s); apply jn_stream; [exact R | constructor] | apply jn_other; [exact N | constructor]].
    - rewrite <- app_assoc. apply jn_stream; [exact R | apply IH; exact D].
    - apply jn_other; [exact N | apply IH; exact D].
  Qed.
  Lemma element_nat : forall (l : list obj) i, element l (Z.of_nat i) = nth_error l i.
  Proof. intros l i. unfold element. destruct (Z.of_nat i <? 0) eqn:B; [apply Z.ltb_lt in B; lia |]. rewrite Nat2Z.id. reflexivity. Qed.
  Lemma firstn_snoc : forall A (l : list A) i x, nth_error l i = Some x -> firstn (S i) l = firstn i l ++ [x].
  Proof. intros A l i. revert l. induction i; intros [| y l] x H; try discriminate; cbn in *; [congruence |]. f_equal. apply IHi. exact H. Qed.
  Lemma xfa_got : forall l k i acc, (i + k = List.length l)%nat -> joined E file p (firstn i l) acc ->
    got file p (xfa_streams rs k (Z.of_nat i) l acc) (fun r q => joined E file p l r /\ kept file p q).
  Proof.
    intros l. induction k as [| k IH]; intros i acc LE J; cbn [xfa_streams].
    - apply got_ret. intros q K. split; [| exact K]. rewrite firstn_all2 in J by lia. exact J.
    - eapply got_bind; [apply el_stream_got |]. intros [s ok] A. rewrite element_nat in A.
      destruct (nth_error l i) as [x |] eqn:Q; [| apply nth_error_None in Q; lia].
      replace (Z.of_nat i + 1) with (Z.of_nat (S i)) by lia. apply IH; [lia |]. rewrite (firstn_snoc _ _ _ _ Q).
      destruct A as [[O1 R] | [Z1 N]]; cbn [fst snd] in *.
      + subst ok. apply joined_app; [exact J | left; exact R].
      + injection Z1 as -> ->. rewrite <- (app_nil_r acc). apply joined_app; [exact J | right; split; [exact N | reflexivity]].
  Qed.
  Lemma forms_says : forall d, says (told E file p d) (forms E rs d).
  Proof.
    intros d. unfold forms. eapply says_about; [apply stream_got |]. intros [s ok] A. destruct ok.
    - apply says_out. apply dump_told. apply em_form. destruct A as [[_ R] | [Z0 _]]; [exact R | discriminate].
    - assert (N : no_reference (entry d (lit "XFA"))) by (destruct A as [[Z0 _] | [_ N]]; [discriminate | exact N]).
      eapply says_about; [apply array_got |]. intros [l ok1] A1. destruct ok1; [| apply says_ret].
      eapply says_about; [apply (xfa_got l (List.length l) 0 []); [reflexivity | constructor] |]. intros data J. apply says_out. apply dump_told.
      eapply em_forms; [exact N | | exact J]. destruct A1 as [[T _] | [_ Z0]]; [exact T | discriminate].
  Qed.
  Lemma answer_element : forall A (is : obj -> A -> Prop) zero l i a, answer E file p is zero (element l i) (a, true) ->
    exists x, element l i = Some x /\ typed E file p is (Some x) a.
  Proof.
    intros A is zero l i a [[T _] | [_ Z0]]; [| discriminate]. cbn [fst] in T. destruct (element l i) as [x |] eqn:Q.
    - exists x. split; [reflexivity | exact T].
    - destruct T as (v & V & _). apply value_none in V. discriminate.
  Qed.
  Lemma embedded_loop_says : forall d l, tree_list d "EmbeddedFiles" l -> forall k i, says (told E file p d) (embedded_loop E rs k (1 + 2 * Z.of_nat i) l).
  Proof.
    intros d l H. induction k as [| k IH]; intros i; cbn [embedded_loop]; [apply says_ret |]. destruct (1 + 2 * Z.of_nat i <? zlen l); [| apply says_ret].
    eapply says_about; [apply el_string_got |]. intros [f ok] A. apply says_bind.
    - destruct ok; [apply xstill_out |]. apply xstill_bind; [apply xstill_lift, a_dict_still |]. intros [f' ok']. destruct ok'; [apply file_extract_still | apply xstill_ret].
    - destruct ok.
      + destruct (answer_element _ _ _ _ _ _ A) as (x & I & T). apply says_out. constructor; [| constructor]. apply external_told. eapply ex_tree; [eapply tree_value; [exact H | exact I] | exact T].
      + eapply says_about; [apply el_dict_got |]. intros [fs ok'] A'. destruct ok'; [| apply says_ret].
        destruct (answer_element _ _ _ _ _ _ A') as (x & I & T). apply file_says; [eapply mn_attached; [eapply tree_value; [exact H | exact I] | exact T] | discriminate].
    - intros _. replace (1 + 2 * Z.of_nat i + 2) with (1 + 2 * Z.of_nat (Datatypes.S i)) by lia. apply IH.
  Qed.
  Lemma urls_loop_says : forall d l, tree_list d "URLS" l -> forall k i, says (told E file p d) (urls_loop rs k (2 * Z.of_nat i) l).
  Proof.
    intros d l H. induction k as [| k IH]; intros i; cbn [urls_loop]; [apply says_ret |]. destruct (2 * Z.of_nat i <? zlen l); [| apply says_ret].
    eapply says_about; [apply el_string_got |]. intros [f ok] A. apply says_bind; [destruct ok; [apply xstill_out | apply xstill_ret] | | intros _; replace (2 * Z.of_nat i + 2) with (2 * Z.of_nat (Datatypes.S i)) by lia; apply IH].
    destruct ok; [| apply says_ret]. destruct (answer_element _ _ _ _ _ _ A) as (x & I & T). apply says_out. constructor; [| constructor]. apply td_url.
    eapply uo_tree; [eapply tree_key; [exact H | exact I] | exact T].
  Qed.
  Lemma javascript_says : forall d, says (told E file p d) (javascript rs d).
  Proof.
    intros d. unfold javascript. eapply says_about; [apply (string_got E file fuel p W O) |]. intros [s ok] A. destruct ok.
    - apply says_out. constructor; [| constructor]. apply td_script, sl_string. destruct A as [[T _] | [_ Z0]]; [exact T | discriminate].
    - eapply says_about; [apply stream_got |]. intros [s' ok'] A'. destruct ok'; [| apply says_ret]. apply says_out. constructor; [| constructor]. apply td_script, sl_stream.
      + destruct A as [[_ Z0] | [U _]]; [discriminate | exact U].
      + destruct A' as [[_ R] | [Z0 _]]; [exact R | discriminate].
  Qed.
  Lemma uris_says : forall d, says (told E file p d) (uris rs d).
  Proof.
    intros d. unfold uris. eapply says_about; [apply (string_got E file fuel p W O) |]. intros [u ok] A. destruct ok.
    - apply says_out. constructor; [| constructor]. apply td_url, uo_uri, ur_string. destruct A as [[T _] | [_ Z0]]; [exact T | discriminate].
    - eapply says_about; [apply (dict_got E file fuel p W O) |]. intros [b ok'] A'. destruct ok'; [| apply says_ret].
      eapply says_about; [apply (string_got E file fuel p W O) |]. intros [u' ok2] A2. destruct ok2; [| apply says_ret].
      apply says_out. constructor; [| constructor]. apply td_url, uo_uri. eapply ur_base.
      + destruct A' as [[T _] | [_ Z0]]; [exact T | discriminate].
      + destruct A2 as [[T _] | [_ Z0]]; [exact T | discriminate].
  Qed.

  Lemma here_says : forall st d, says (told E file p d) (extract_here E OD rs fuel st d).
  Proof.
    intros st d. unfold extract_here.
    apply says_bind; [apply action_at_still | apply action_at_says; intros a T; apply ac_a; exact T | intros _].
    apply says_bind; [apply action_at_still | apply action_at_says; intros a T; apply ac_open; exact T | intros _].
    apply says_bind; [apply additional_actions_still; exact OK | apply additional_says | intros _].
    apply says_bind; [apply forms_still | apply forms_says | intros _].
    apply says_bind; [apply embedded_files_still | unfold embedded_files; eapply says_about; [apply tree_map_got | intros l H; apply (embedded_loop_says d l H _ 0)] | intros _].
    apply says_bind; [apply javascript_still | apply javascript_says | intros _].
    apply says_bind; [apply page_text_of_still | intros q K; apply page_text_of_all; intros b; apply td_text | intros _].
    apply says_bind; [apply uris_still | apply uris_says | intros _].
    unfold urls_tree. eapply says_about; [apply tree_map_got | intros l H; apply (urls_loop_says d l H _ 0)].
  Qed.
  Definition told_in (o : obj) (e : ev) : Prop := exists h, holds o h /\ told E file p h e.
  Lemma extract_says : forall o st, says (told_in o) (extract E OD rs fuel st o).
  Proof.
    intros o. induction o as [| | | | | l IH | d IH] using obj_nested_ind; intros st; try apply says_ret.
    - rewrite extract_array. apply says_seq. intros m I. apply in_extracts in I. destruct I as (st' & x & Ix & ->). split; [apply extract_still; exact OK |].
      eapply Forall_forall in IH; [| exact Ix]. eapply says_weaken; [| apply IH]. intros e (h & Hh & Te). exists h. split; [eapply hd_array; eassumption | exact Te].
    - rewrite extract_dict. apply says_bind; [apply extract_here_still; exact OK | | intros _].
      + eapply says_weaken; [| apply here_says]. intros e Te. exists d. split; [constructor | exact Te].
      + apply says_seq. intros m I.
        apply (Permutation_in m (Permutation_sym (proj1 OK (2 :: st) _ _))) in I. apply in_extracts in I. destruct I as (st' & x & Ix & ->).
        split; [apply extract_still; exact OK |].
        pose proof Ix as Ik. apply in_map_iff in Ik. destruct Ik as ([k x'] & Q & Ik). cbn [snd] in Q. subst x'.
        eapply Forall_forall in IH; [| exact Ix]. eapply says_weaken; [| apply IH]. intros e (h & Hh & Te). exists h. split; [eapply hd_dict; eassumption | exact Te].
  Qed.
  Definition sourced (e : ev) : Prop := (exists b, e = EWrite FRaw b) \/ exists h, of_document E file p h /\ told E file p h e.
  Lemma kept_sym : forall q, kept file p q -> kept file q p.
  Proof. intros q K. destruct K as (_ & A & B & C). split; [exact W |]. auto. Qed.
  Lemma extract_one_says : forall n e, mget Z.eqb n (pxref p) = Some e -> says sourced (extract_one E OD fuel file (n, e)).
  Proof.
    intros n e X. unfold extract_one. change XrefTypeIndirectObject with 1. destruct (x_type e =? 1) eqn:TY; [| apply says_ret]. apply Z.eqb_eq in TY.
    apply says_bind; [apply xstill_lift, lift_still | intros q K; constructor | intros _].
    eapply (says_about _ _ _ _ _ (fun o => fetched E file p n o)).
    - intros q o q' K G. split; [| eapply kept_trans; [exact K | eapply GetObject_kept; [exact (proj1 K) | exact G]]].
      pose proof (kept_sym _ K) as K'. assert (F : fetched E file q n o) by (exists fuel, q'; exact G).
      destruct (fetched_at E file q p n o (kept_alike _ _ _ K')) as (f0 & Hf); [| exact F |].
      + intros e' X' T'. destruct K as (_ & A & _). rewrite A in X'. exact (O n e' X' T').
      + destruct (Hf f0 (le_n _)) as (q2 & Q). exists f0, q2. exact Q.
    - intros o F. apply says_bind; [apply object_extract_still; exact OK | | intros _].
      + unfold object_extract. destruct (ival o) as [| | | | | |d] eqn:V; try apply says_ret. eapply says_weaken; [| apply extract_says].
        intros ee (h & Hh & Te). right. exists h. split; [| exact Te]. exists n, o, d. split; [exists e; split; assumption |]. auto.
      + apply says_out. constructor; [| constructor]. left. eexists. reflexivity.
  Qed.
  Lemma extract_all_says : NoDup (map fst (pxref p)) -> forall l, (forall kv, In kv l -> In kv (pxref p)) -> says sourced (extract_all E OD fuel file l).
  Proof.
    intros N. induction l as [| [n e] l IH]; intros H; [apply says_ret |]. cbn [extract_all].
    intros q K. assert (X : mget Z.eqb n (pxref p) = Some e) by (apply (In_mget Z.eqb Zeqb_ok); [exact N | apply H; left; reflexivity]).
    pose proof (extract_one_says n e X q K) as S1. unfold xbind. destruct (extract_one E OD fuel file (n, e) q) as [w [[a q1]| |]] eqn:R; cbn [fst] in *; try exact S1.
    assert (K1 : kept file p q1) by (eapply extract_one_calm; eassumption).
    pose proof (IH (fun kv I => H kv (or_intror I)) q1 K1) as S2. destruct (extract_all E OD fuel file l q1) as [w' r]. apply Forall_app. split; assumption.
  Qed.
End Says.

(** Whatever the outcome of the run, every event has its source. *)
Lemma parse_sourced : forall E OD fuel S pw file p, order_ok OD -> s_input S = Some file ->
  load fuel E (o_objects OD) file pw (new_parser file) = Ok (None, p) -> offsets_ok (pxref p) ->
  forall e, In (OpEv e) (fst (parse E OD fuel S pw)) -> sourced E file p e.
Proof.
  intros E OD fuel S pw file p OK I L Of e H.
  assert (SP : sound file p) by (eapply tidy_load; [apply new_sound | exact L]). destruct SP as [W N].
  assert (B : Forall (sourced E file p) (fst (parse_body E OD fuel file pw (new_parser file)))).
  { unfold parse_body. unfold xbind at 1, xlift at 1, lift. destruct (debug E) as [u| |]; try constructor.
    unfold xbind, xlift. rewrite L.
    pose proof (extract_all_says E OD file fuel p OK W Of N (o_xref OD (pxref p))) as X.
    specialize (X (fun kv I => Permutation_in kv (Permutation_sym (proj2 (proj2 OK) _)) I) p (kept_refl' _ _ W)).
    destruct (extract_all E OD fuel file (o_xref OD (pxref p)) p) as [w [[a q1]| |]]; cbn [fst] in *; try exact X. repeat (apply Forall_app; split); try exact X; constructor. }
  unfold parse in H. rewrite I in H. pose proof (new_output_silent S) as NS. destruct (new_output S) as [[ops1 opened] ok] eqn:NO.
  assert (N1 : ~ In (OpEv e) ops1).
  { intros J. assert (J2 : In (OpEv e) (fst (fst (new_output S)))) by (rewrite NO; exact J). destruct (new_output_ops _ _ J2) as [X | [X | (g & X)]]; discriminate. }
  assert (N2 : ~ In (OpEv e) (close_output opened)) by (intros J; destruct (close_ops _ _ J) as (g & X & _); discriminate).
  destruct ok; [| cbn [fst] in H; apply in_app_or in H; destruct H; contradiction].
  destruct (parse_body E OD fuel file pw (new_parser file)) as [w [[[e' |] q]| |]]; cbn [fst] in *;
    repeat (apply in_app_or in H; destruct H as [H | H]; try contradiction);
    try (apply in_map_iff in H; destruct H as (x & Q & J); injection Q as ->; eapply Forall_forall in B; [exact B | exact J]).
Qed.

Section Run.
  Variables (E : env) (OD : order) (fuel : nat) (S : sys) (pw : bytes) (file : bytes) (p : pst).
  Hypothesis OK : order_ok OD.
  Hypothesis I : s_input S = Some file.
  Hypothesis L : load fuel E (o_objects OD) file pw (new_parser file) = Ok (None, p).
  Hypothesis Of : offsets_ok (pxref p).
  Ltac source H := destruct (parse_sourced _ _ _ _ _ _ _ OK I L Of _ H) as [(?b & ?Q) | (?h & ?D & ?T)]; [discriminate |].
  Lemma url_source : forall b, In (OpEv (EWrite FURLs b)) (fst (parse E OD fuel S pw)) ->
    exists h u, of_document E file p h /\ url_of E file p h u /\ b = u ++ [x0a].
  Proof. intros b H. source H. inversion T; subst. eauto. Qed.
  Lemma command_source : forall b, In (OpEv (EWrite FCommands b)) (fst (parse E OD fuel S pw)) ->
    exists h c, of_document E file p h /\ command_line E file p h c /\ b = c ++ [x0a].
  Proof. intros b H. source H. inversion T; subst. eauto. Qed.
  Lemma script_source : forall b, In (OpEv (EWrite FJavascript b)) (fst (parse E OD fuel S pw)) ->
    exists h s, of_document E file p h /\ script_line E file p h s /\ b = s ++ [x0a].
  Proof. intros b H. source H. inversion T; subst. eauto. Qed.
  Lemma dump_source : forall x data, In (OpEv (EDump x data)) (fst (parse E OD fuel S pw)) ->
    hexed (e_md5 E data) x /\ exists h name, of_document E file p h /\ embedded E file p h name data.
  Proof. intros x data H. source H. inversion T; subst. eauto 6. Qed.
  Lemma manifest_source : forall b, In (OpEv (EWrite FFiles b)) (fst (parse E OD fuel S pw)) ->
    exists h, of_document E file p h /\
      ((exists name data x, embedded E file p h name data /\ hexed (e_md5 E data) x /\ b = x ++ lit ":" ++ name ++ [x0a]) \/
       (exists f, external E file p h f /\ b = zeros ++ lit ":" ++ f ++ [x0a])).
  Proof. intros b H. source H. inversion T; subst; eauto 10. Qed.
  (** nothing is written to any other file, except raw.pdf and contents.txt *)
  Lemma no_other : forall b, ~ In (OpEv (EWrite FErrors b)) (fst (parse E OD fuel S pw)).
  Proof. intros b H. source H. inversion T. Qed.
End Run.
