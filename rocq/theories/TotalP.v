(** TotalP.v -- Parse returns (C89). *)
From Verif Require Import Base BaseP Msg Reader ReaderP Num Lexer Obj ReadObj Env Getters Crypt GetObj Font Page Tree Output Render Extract Load Parse
  RelP GetObjP SpecRead FetchP TermP XTermP SpecStream LookP SecurityP TreeP FuelP LoadMonoP LoadInvP OutP OutTopP RawP ExtractP SpecFetch SpecLook SpecTree SpecOut SpecSource
  ReadP SpecObj SpecText SpecPage TextP PageP CMapP SpecPages SpecContents SpecTotal.
From Coq Require Import Strings.String Sorting.Permutation.
Local Open Scope x_scope.

Section Total.
  Variables (E : env) (OD : order) (file : bytes) (p : pst).
  Hypothesis OK : order_ok OD.
  Hypothesis W : reads file p.
  Hypothesis O : offsets_ok (pxref p).
  Hypothesis T : forall n, exists o, target E file p n o.

  Definition runs (m : X unit) : Prop := forall q, kept file p q -> exists w q', m q = (w, Ok (tt, q')) /\ kept file p q'.
  (** runs to its end, given enough fuel *)
  Definition total (m : nat -> X unit) : Prop := exists F, forall f, (F <= f)%nat -> runs (m f).
  Definition knows {A} (m : nat -> M A) (Q : A -> Prop) : Prop := exists a, Q a /\ gives file p m a (kept file p).

  Lemma total_ret : total (fun _ => xret tt).
  Proof. exists 0%nat. intros f _ q K. exists [], q. split; [reflexivity | exact K]. Qed.
  Lemma total_out : forall w, total (fun _ => xout w).
  Proof. intros w. exists 0%nat. intros f _ q K. exists w, q. split; [reflexivity | exact K]. Qed.
  Lemma runs_then : forall m k, runs m -> runs k -> runs (xbind m (fun _ => k)).
  Proof.
    intros m k M1 K1 q K. destruct (M1 q K) as (w & q1 & Q1 & K2). destruct (K1 q1 K2) as (w2 & q2 & Q2 & K3).
    exists (w ++ w2), q2. unfold xbind. rewrite Q1, Q2. split; [reflexivity | exact K3].
  Qed.
  Lemma total_then : forall m k, total m -> total k -> total (fun f => m f ;;; k f).
  Proof. intros m k [F1 H1] [F2 H2]. exists (F1 + F2)%nat. intros f L. apply runs_then; [apply H1 | apply H2]; lia. Qed.
  Lemma total_know : forall A (m : nat -> M A) (k : nat -> A -> X unit) (Q : A -> Prop), knows m Q -> (forall a, Q a -> total (fun f => k f a)) -> total (fun f => xbind (xlift (m f)) (k f)).
  Proof.
    intros A m k Q (a & Qa & F1 & H1) H. destruct (H a Qa) as [F2 H2]. exists (F1 + F2)%nat. intros f L q K.
    destruct (H1 f q ltac:(lia) K) as (q1 & Q1 & K1). destruct (H2 f ltac:(lia) q1 K1) as (w & q2 & Q2 & K2).
    exists w, q2. unfold xbind, xlift. rewrite Q1, Q2. split; [reflexivity | exact K2].
  Qed.
  Lemma total_ext : forall m m', (forall f q, m f q = m' f q) -> total m -> total m'.
  Proof. intros m m' Q [F H]. exists F. intros f L q K. rewrite <- Q. apply H; assumption. Qed.
  Lemma knows_ret : forall A (a : A) (Q : A -> Prop), Q a -> knows (fun _ => ret a) Q.
  Proof. intros A a Q H. exists a. split; [exact H | apply gives_ret]. Qed.
  Lemma knows_bind : forall A B (m : nat -> M A) (k : nat -> A -> M B) (Q : A -> Prop) (Q' : B -> Prop), knows m Q -> (forall a, Q a -> knows (fun f => k f a) Q') -> knows (fun f => bind (m f) (k f)) Q'.
  Proof. intros A B m k Q Q' (a & Qa & G) H. destruct (H a Qa) as (b & Qb & G'). exists b. split; [exact Qb |]. eapply gives_bind; eassumption. Qed.
  Lemma total_all : forall (l : list (nat -> X unit)) (perm : nat -> list (X unit) -> list (X unit)), (forall m, In m l -> total m) -> (forall f x, incl (perm f x) x) ->
    total (fun f => xseq (perm f (map (fun m => m f) l))).
  Proof.
    intros l perm H I. assert (G : exists F, forall f, (F <= f)%nat -> forall m, In m (map (fun m => m f) l) -> runs m).
    { clear I. induction l as [| m l IH]; [exists 0%nat; intros f _ m [] |]. destruct (H m (or_introl eq_refl)) as [F1 H1]. destruct IH as [F2 H2]; [intros; apply H; right; assumption |].
      exists (F1 + F2)%nat. intros f L m' [<- | J]; [apply H1; lia | apply (H2 f ltac:(lia)); exact J]. }
    destruct G as [F G]. exists F. intros f L. specialize (G f L).
    assert (G' : forall m, In m (perm f (map (fun m => m f) l)) -> runs m) by (intros m J; apply G; apply (I f); exact J). clear - G'.
    induction (perm f (map (fun m => m f) l)) as [| m x IH]; cbn [xseq]; [intros q K; exists [], q; split; [reflexivity | exact K] |].
    apply runs_then; [apply G'; left; reflexivity | apply IH; intros; apply G'; right; assumption].
  Qed.

  (** ** Getters *)
  Lemma value_ex : forall x, exists y, value E file p x y.
  Proof.
    intros [x |]; [| exists None; constructor]. assert (R : (exists n g, x = ORef n g) \/ forall n g, x <> ORef n g) by (destruct x; try (right; discriminate); left; eauto).
    destruct R as [(n & g & ->) | N]; [destruct (T n) as [o To]; eexists; apply v_ref; exact To | eexists; apply v_direct; exact N].
  Qed.
  Lemma d_known : forall A (is : obj -> A -> Prop) zero as_, classifies is zero as_ -> (forall v, (exists a, is v a) \/ (forall a, ~ is v a)) ->
    forall d k, knows (fun f => bind (d_object (Resolve f E file) d k) (fun x => ret (as_ x))) (answer E file p is zero (entry d k)).
  Proof.
    intros A is zero as_ C D d k. destruct (value_ex (entry d k)) as [y V]. exists (as_ (found y)). split; [apply as_answer; assumption |].
    eapply gives_bind; [apply d_object_gives; eassumption | apply gives_ret].
  Qed.
  Lemma a_known : forall A (is : obj -> A -> Prop) zero as_, classifies is zero as_ -> (forall v, (exists a, is v a) \/ (forall a, ~ is v a)) ->
    forall d k, knows (fun f => bind (a_object (Resolve f E file) d k) (fun x => ret (as_ x))) (answer E file p is zero (element d k)).
  Proof.
    intros A is zero as_ C D d k. destruct (value_ex (element d k)) as [y V]. exists (as_ (found y)). split; [apply as_answer; assumption |].
    eapply gives_bind; [apply a_object_gives; eassumption | apply gives_ret].
  Qed.
  Definition is_stream_of (x : option obj) (r : option bytes * bool) : Prop := referred E file p x (stream_bytes (fst r)) \/ (no_reference x /\ fst r = Some []).
  Lemma stream_known : forall (x : option obj), knows (fun f => match x with Some (ORef n _) => bind (Resolve f E file n) (fun o => ret (istream o, true)) | _ => ret (Some [], false) end) (is_stream_of x).
  Proof.
    intros [[| | | | n g | |] |]; try (apply knows_ret; right; split; [intros n' g'; discriminate | reflexivity]).
    destruct (T n) as [o To]. exists (istream o, true). split; [left; exists n, g, o; split; [reflexivity | split; [exact To | reflexivity]] |].
    eapply gives_bind; [apply target_gives; eassumption | apply gives_ret].
  Qed.
  Lemma d_stream_known : forall d k, knows (fun f => d_stream (Resolve f E file) d k) (is_stream_of (entry d k)).
  Proof. intros d k. unfold d_stream. rewrite dget_entry. apply stream_known. Qed.
  Lemma a_stream_known : forall d k, knows (fun f => a_stream (Resolve f E file) d k) (is_stream_of (element d k)).
  Proof. intros d k. unfold a_stream. rewrite zget_element. apply stream_known. Qed.
  Lemma d_dict_known : forall d k, knows (fun f => d_dict (Resolve f E file) d k) (answer E file p is_dict [] (entry d k)).
  Proof. exact (d_known _ is_dict [] as_dict dict_classifies is_dict_dec). Qed.
  Lemma d_array_known : forall d k, knows (fun f => d_array (Resolve f E file) d k) (answer E file p is_array [] (entry d k)).
  Proof. exact (d_known _ is_array [] as_array array_classifies is_array_dec). Qed.
  Lemma d_string_known : forall d k, knows (fun f => d_string (Resolve f E file) d k) (answer E file p is_string [] (entry d k)).
  Proof. exact (d_known _ is_string [] as_string string_classifies is_string_dec). Qed.
  Lemma d_name_known : forall d k, knows (fun f => d_name (Resolve f E file) d k) (answer E file p is_name [] (entry d k)).
  Proof. exact (d_known _ is_name [] as_name name_classifies is_name_dec). Qed.
  Lemma a_dict_known : forall d k, knows (fun f => a_dict (Resolve f E file) d k) (answer E file p is_dict [] (element d k)).
  Proof. exact (a_known _ is_dict [] as_dict dict_classifies is_dict_dec). Qed.
  Lemma a_string_known : forall d k, knows (fun f => a_string (Resolve f E file) d k) (answer E file p is_string [] (element d k)).
  Proof. exact (a_known _ is_string [] as_string string_classifies is_string_dec). Qed.
  Ltac leaf := first [apply d_dict_known | apply d_array_known | apply d_string_known | apply d_name_known | apply a_dict_known | apply a_string_known | apply d_stream_known | apply a_stream_known].
  Ltac tot_ tac := repeat match goal with
    | |- total (fun _ => xret tt) => apply total_ret
    | |- total (fun _ => xout _) => apply total_out
    | |- total (fun f => xbind (xlift _) _) => eapply total_know; [leaf |]; intros [? ?] ?
    | |- total (fun f => xbind _ (fun _ => _)) => apply total_then
    | |- total (fun f => if ?b then _ else _) => destruct b
    | |- _ => tac
    end.
  Ltac tot := tot_ idtac.

  (** ** Files, actions, forms *)
  Lemma file_total : forall d c, total (fun f => file_extract E (Resolve f E file) d c).
  Proof. intros d c. unfold file_extract. tot. Qed.
  Lemma action_total : forall d, total (fun f => action_extract E (Resolve f E file) d).
  Proof. intros d. unfold action_extract. tot; apply file_total. Qed.
  Lemma action_at_total : forall d k, total (fun f => action_at E (Resolve f E file) d k).
  Proof. intros d k. unfold action_at. tot. apply action_total. Qed.
  Lemma additional_total : forall st d, total (fun f => additional_actions E OD (Resolve f E file) st d).
  Proof.
    intros st d. unfold additional_actions. eapply total_know; [leaf |]. intros [aa ok] _. destruct ok; [| apply total_ret].
    apply total_ext with (m := fun f => xseq ((fun _ x => x) f (map (fun m => m f) (map (fun k f => action_at E (Resolve f E file) aa k) (o_map OD (0 :: st) bytes (map fst aa)))))).
    - intros f q. cbv beta. rewrite map_map. reflexivity.
    - apply (total_all (map (fun k f => action_at E (Resolve f E file) aa k) (o_map OD (0 :: st) bytes (map fst aa))) (fun _ x => x)); [| intros f x; apply incl_refl]. intros m J. apply in_map_iff in J. destruct J as (k & <- & _). apply action_at_total.
  Qed.
  Lemma xfa_known : forall k i a acc, knows (fun f => xfa_streams (Resolve f E file) k i a acc) (fun _ => True).
  Proof.
    induction k as [| k IH]; intros i a acc; cbn [xfa_streams]; [apply knows_ret; exact Logic.I |]. eapply knows_bind; [leaf |]. intros [s ok] _. destruct ok; apply IH.
  Qed.
  Lemma forms_total : forall d, total (fun f => forms E (Resolve f E file) d).
  Proof.
    intros d. unfold forms. eapply total_know; [leaf |]. intros [s ok] _. destruct ok; [apply total_out |]. eapply total_know; [leaf |]. intros [l ok] _. destruct ok; [| apply total_ret].
    eapply total_know; [apply xfa_known |]. intros data _. apply total_out.
  Qed.
  Lemma javascript_total : forall d, total (fun f => javascript (Resolve f E file) d).
  Proof. intros d. unfold javascript. tot. Qed.
  Lemma uris_total : forall d, total (fun f => uris (Resolve f E file) d).
  Proof. intros d. unfold uris. tot. Qed.
  Lemma embedded_loop_total : forall k i l, total (fun f => embedded_loop E (Resolve f E file) k i l).
  Proof.
    induction k as [| k IH]; intros i l; cbn [embedded_loop]; [apply total_ret |]. destruct (i <? zlen l); [| apply total_ret].
    eapply total_know; [leaf |]. intros [s ok] _. apply total_then; [| apply IH]. destruct ok; [apply total_out |]. eapply total_know; [leaf |]. intros [d ok] _. destruct ok; [apply file_total | apply total_ret].
  Qed.
  Lemma urls_loop_total : forall k i l, total (fun f => urls_loop (Resolve f E file) k i l).
  Proof.
    induction k as [| k IH]; intros i l; cbn [urls_loop]; [apply total_ret |]. destruct (i <? zlen l); [| apply total_ret].
    eapply total_know; [leaf |]. intros [s ok] _. apply total_then; [| apply IH]. destruct ok; [apply total_out | apply total_ret].
  Qed.
  Lemma works_known : forall A (m : nat -> nat -> M A) a (Q : A -> Prop), works file p m a -> Q a -> knows (fun f => m f f) Q.
  Proof. intros A m a Q [F H] Qa. exists a. split; [exact Qa |]. exists F. intros f q L K. apply H; assumption. Qed.

  (** ** Name trees *)
  Hypothesis NE : names_end E file p.
  Lemma names_known : forall h k, of_document E file p h -> k = "EmbeddedFiles"%string \/ k = "URLS"%string ->
    knows (fun f => name_tree_map (Resolve f E file) f h (lit k)) (fun _ => True).
  Proof.
    intros h k D K. destruct NE as (good & Sane & Roots). destruct (name_tree_ends E file p W O T h (lit k) good Sane (fun root R => Roots h k root D K R)) as [l Wk].
    exact (works_known _ _ l _ Wk Logic.I).
  Qed.
  Lemma embedded_total : forall d, of_document E file p d -> total (fun f => embedded_files E (Resolve f E file) f d).
  Proof. intros d D. unfold embedded_files. eapply total_know; [apply (names_known d "EmbeddedFiles" D); left; reflexivity |]. intros l _. apply embedded_loop_total. Qed.
  Lemma urls_total : forall d, of_document E file p d -> total (fun f => urls_tree (Resolve f E file) f d).
  Proof. intros d D. unfold urls_tree. eapply total_know; [apply (names_known d "URLS" D); right; reflexivity |]. intros l _. apply urls_loop_total. Qed.

  (** ** Pages *)
  Hypothesis ME : maps_end E file p.
  Lemma answer_dict : forall d k r, answer E file p is_dict [] (entry d k) r -> dict_at E file p d k (fst r).
  Proof. intros d k [a ok] [[H _] | [H Q]]; [left; exact H | right]. injection Q as -> _. split; [exact H | reflexivity]. Qed.
  Lemma empty_moderate : moderate [].
  Proof. apply short_moderate. intros s v s' Ws Q. destruct (hex_any [] s Ws) as (v' & s2 & Q' & _ & L & N). assert (v' = v) by congruence. subst v'.
    destruct v as [| b v]; [vm_compute; discriminate |]. exfalso. specialize (N ltac:(discriminate)). pose proof (wf_rest _ _ Ws) as R. destruct (rest s) as [| x r] eqn:Qr; [cbn in N; lia |].
    rewrite zdrop_skipn in R by apply (wf_pos _ _ Ws). rewrite skipn_nil in R. discriminate R.
  Qed.
  Lemma cmap_known : forall c, moderate c -> exists g, 1 <= f_width g /\ exists F, forall f, (F <= f)%nat -> cmap_font f E c = Ok g.
  Proof.
    intros c M. destruct (moderate_loads E c M) as [F H]. destruct (H F (le_n _)) as [g G]. exists g. split; [eapply new_font_width; exact G |].
    exists F. intros f L. destruct (cmap_font_mono F f E c L) as [X | X]; congruence.
  Qed.
  Lemma fonts_known : forall fonts, (forall k info c, dict_at E file p fonts k info -> referred E file p (entry info (lit "ToUnicode")) c -> moderate c) ->
    forall names fm, sound_fonts fm -> knows (fun f => load_fonts E (Resolve f E file) f names fonts fm) sound_fonts.
  Proof.
    intros fonts H. induction names as [| k names IH]; intros fm SF; cbn [load_fonts]; [apply knows_ret; exact SF |].
    eapply knows_bind; [leaf |]. intros [info ok] A. apply answer_dict in A. cbn [fst] in A. cbv beta iota.
    apply (knows_bind _ _ (fun f => new_font f E (Resolve f E file) info) (fun f g => load_fonts E (Resolve f E file) f names fonts (mset bseq k g fm)) (fun g => 1 <= f_width g)).
    - unfold new_font. eapply knows_bind; [apply d_stream_known |]. intros [c ok'] B. cbv beta iota.
      assert (M : moderate (match c with Some c => c | None => [] end)).
      { destruct B as [R | [_ Q]]; [eapply H; [exact A | exact R] | cbn [fst] in Q; subst c; exact empty_moderate]. }
      destruct (cmap_known _ M) as (g & Wg & F & G). exists g. split; [exact Wg |]. exists F. intros f q L K. exists q. unfold lift. rewrite (G f L). split; [reflexivity | exact K].
    - intros g Wg. apply IH. intros n f Q. destruct (bseq n k) eqn:B; [apply bseq_eq in B; subst n; rewrite (mget_mset_same bseq bseq_ok) in Q; injection Q as <-; exact Wg |].
      rewrite (mget_mset_other bseq bseq_ok) in Q; [eapply SF; exact Q | intros ->; rewrite bseq_refl in B; discriminate].
  Qed.
  Lemma text_total : forall fm c, sound_fonts fm -> total (fun f => xpure (page_text f E fm c)).
  Proof.
    intros fm c SF. destruct (page_text_total E fm c SF) as (l & cs & ls & _ & _ & _ & F & H). exists F. intros f L q K. exists (lines ls), q. unfold xpure. rewrite (H f L). split; [reflexivity | exact K].
  Qed.
  Lemma contents_array_total : forall fm a, sound_fonts fm -> forall k i, total (fun f => contents_array E (Resolve f E file) f k i fm a).
  Proof.
    intros fm a SF. induction k as [| k IH]; intros i; cbn [contents_array]; [apply total_ret |]. eapply total_know; [leaf |]. intros [c ok] _. apply total_then; [| apply IH].
    destruct ok; [apply text_total; exact SF | apply total_ret].
  Qed.
  Lemma page_total : forall st h page, of_document E file p h -> page_under E file p h page -> total (fun f => page_extract E OD (Resolve f E file) f st page).
  Proof.
    intros st h page D U. unfold page_extract. eapply total_know; [leaf |]. intros [res ok1] A1. apply answer_dict in A1. cbn [fst] in A1.
    eapply total_know; [leaf |]. intros [fonts ok2] A2. apply answer_dict in A2. cbn [fst] in A2.
    eapply total_know; [apply (fonts_known fonts) |].
    - intros k info c I1 R. apply ME. eapply fm_page; eassumption.
    - intros n f Q. discriminate Q.
    - intros fm SF. eapply total_know; [leaf |]. intros [c ok] _. destruct ok; [apply text_total; exact SF |]. eapply total_know; [leaf |]. intros [a ok] _.
      destruct ok; [apply contents_array_total; exact SF | apply total_ret].
  Qed.
  Lemma pages_loop_total : forall h, of_document E file p h -> forall l st i, (forall d, In d l -> page_under E file p h d) -> total (fun f => pages_loop E OD (Resolve f E file) f st i l).
  Proof.
    intros h D. induction l as [| d l IH]; intros st i H; cbn [pages_loop]; [apply total_ret |]. apply total_then; [eapply page_total; [exact D | apply H; left; reflexivity] |].
    apply IH. intros; apply H; right; assumption.
  Qed.
  Lemma page_text_of_total : forall st h, of_document E file p h -> total (fun f => page_text_of E OD (Resolve f E file) f st h).
  Proof.
    intros st h D. unfold page_text_of.
    apply (total_know _ (fun f => page_tree (Resolve f E file) f h (lit "Pages")) _ (fun r => forall d, In d (fst r) -> page_under E file p h d)).
    - destruct (d_dict_known h (lit "Pages")) as ([root ok] & [[R _] | [U _]] & _).
      + destruct (page_tree_works E file p W O T h (lit "Pages") root R) as (ks & ts & A & _ & Wk & _ & RE). refine (works_known _ _ _ _ Wk _).
        intros d [<- | J]; [apply pu_root; exact R |]. apply in_map_iff in J. destruct J as ([n e] & <- & J). eapply pu_below; [exact R | exact A | apply RE; exact J].
      + refine (works_known _ _ _ _ (page_tree_none E file p W O h (lit "Pages") U) _). intros d [].
    - intros [pages ok] H. destruct ok; [apply pages_loop_total with (h := h); assumption | apply total_ret].
  Qed.

  (** ** Objects *)
  Lemma here_total : forall st h, of_document E file p h -> total (fun f => extract_here E OD (Resolve f E file) f st h).
  Proof.
    intros st h D. unfold extract_here. repeat (apply total_then); first [apply action_at_total | apply additional_total | apply forms_total | apply embedded_total; exact D
      | apply javascript_total | apply page_text_of_total; exact D | apply uris_total | apply urls_total; exact D].
  Qed.
  Lemma extract_total : forall n o st, (osize o <= n)%nat -> (forall h, holds o h -> of_document E file p h) -> total (fun f => extract E OD (Resolve f E file) f st o).
  Proof.
    induction n as [| n IH]; intros o st L H; [destruct o; cbn [osize] in L; lia |]. destruct o as [| | | | | l | d]; try apply total_ret.
    - cbn [extract osize] in *.
      apply total_ext with (m := fun f => xseq (map (fun m => m f) ((fix go (i : Z) (l : list obj) : list (nat -> X unit) :=
        match l with [] => [] | x :: l' => (fun f => extract E OD (Resolve f E file) f (i :: 4 :: st) x) :: go (i + 1) l' end) 0 l))).
      + intros f q. f_equal. f_equal. generalize 0. clear. induction l as [| x l IHl]; intros i; [reflexivity |]. cbn [map]. f_equal. apply IHl.
      + apply (total_all _ (fun _ x => x)); [| intros f x; apply incl_refl]. assert (G : forall x, In x l -> forall st, total (fun f => extract E OD (Resolve f E file) f st x)).
        { intros x J st'. apply IH; [pose proof (sum_in _ _ (in_map osize l x J)); lia |]. intros h Hh. apply H. eapply hd_array; eassumption. }
        clear - G. generalize 0. induction l as [| x l IHl]; intros i m J; [destruct J |]. destruct J as [<- | J]; [apply G; left; reflexivity |].
        eapply IHl; [intros; apply G; right; assumption | exact J].
    - cbn [extract osize] in *. apply total_then; [apply here_total; apply H; constructor |].
      apply total_ext with (m := fun f => xseq (o_map OD (2 :: st) (X unit) (map (fun m => m f) ((fix go (i : Z) (d : list (bytes * obj)) : list (nat -> X unit) :=
        match d with [] => [] | (_, x) :: d' => (fun f => extract E OD (Resolve f E file) f (i :: 3 :: st) x) :: go (i + 1) d' end) 0 d)))).
      + intros f q. f_equal. f_equal. f_equal. generalize 0. clear. induction d as [| [k x] d IHd]; intros i; [reflexivity |]. cbn [map]. f_equal. apply IHd.
      + apply (total_all _ (fun _ => o_map OD (2 :: st) (X unit))).
        2: { intros f x m J. eapply Permutation_in; [apply Permutation_sym; apply (proj1 OK) | exact J]. }
        assert (G : forall k x, In (k, x) d -> forall st, total (fun f => extract E OD (Resolve f E file) f st x)).
        { intros k x J st'. apply IH; [pose proof (sum_in _ _ (in_map (fun kv => osize (snd kv)) d (k, x) J)) as S1; cbn [snd] in S1; lia |]. intros h Hh. apply H. eapply hd_dict; eassumption. }
        clear - G. generalize 0. induction d as [| [k x] d IHd]; intros i m J; [destruct J |]. destruct J as [<- | J]; [apply (G k x); left; reflexivity |].
        eapply IHd; [intros; eapply G; right; eassumption | exact J].
  Qed.
  Lemma fetched_known : forall n, knows (fun f => GetObject f E file n) (fun o => fetched E file p n o).
  Proof.
    intros n. assert (F : exists o, fetched E file p n o).
    { destruct (T n) as (o & f & q & R). unfold Resolve, restoring, bind in R. destruct f as [| f]; [discriminate R |]. cbn [resolve zmem existsb] in R. unfold bind in R.
      destruct (get_object f E file n p) as [[o' q'] | |] eqn:G; try discriminate R. exists o', f. unfold GetObject, restoring, bind. rewrite G. eexists. reflexivity. }
    destruct F as [o Fo]. exists o. split; [exact Fo |]. destruct Fo as (f0 & q0 & G).
    exists f0. intros f q L K. apply (get_object_mono f0 f) in G; [| exact L].
    pose proof (get_object_history f E file n p q (kept_alike _ _ _ K) (fun e X Ty => O n e X Ty)) as H. rewrite G in H. unfold GetObject.
    destruct (get_object f E file n q) as [[o2 q'] | |] eqn:Q; try tauto. destruct H as [-> _]. exists q'. split; [reflexivity |].
    eapply kept_trans; [exact K | eapply GetObject_kept; [exact (proj1 K) | exact Q]].
  Qed.
  Hypothesis V : e_verbose E <> None.
  Lemma debug_ok : debug E = Ok tt.
  Proof. unfold debug. destruct (e_verbose E); [reflexivity | congruence]. Qed.
  Lemma one_total : forall n e, xget n (pxref p) = Some e -> total (fun f => extract_one E OD f file (n, e)).
  Proof.
    intros n e X. unfold extract_one. destruct (x_type e =? XrefTypeIndirectObject) eqn:Ty; [| apply total_ret]. apply Z.eqb_eq in Ty. rewrite debug_ok.
    apply total_then; [apply total_ret |]. eapply total_know; [apply fetched_known |]. intros o F. apply total_then; [| apply total_out].
    unfold object_extract. destruct (ival o) as [| | | | | | d] eqn:I; try apply total_ret. apply (extract_total (osize (ODict d))); [apply le_n |].
    intros h H. exists n, o, d. split; [exists e; split; [exact X | exact Ty] |]. split; [exact F |]. split; [exact I | exact H].
  Qed.
  Lemma all_total : forall l, (forall n e, In (n, e) l -> xget n (pxref p) = Some e) -> total (fun f => extract_all E OD f file l).
  Proof.
    induction l as [| [n e] l IH]; intros H; cbn [extract_all]; [apply total_ret |]. apply total_then; [apply one_total; apply H; left; reflexivity | apply IH; intros; apply H; right; assumption].
  Qed.
End Total.

Lemma In_xget : forall (x : xmap) n e, NoDup (map fst x) -> In (n, e) x -> xget n x = Some e.
Proof.
  induction x as [| [k v] x IH]; intros n e N J; [destruct J |]. cbn [map fst] in N. apply NoDup_cons_iff in N. destruct N as [N1 N2]. unfold xget in *. cbn [mget].
  destruct J as [J | J]; [injection J as -> ->; rewrite Z.eqb_refl; reflexivity |]. destruct (n =? k) eqn:Q; [| apply IH; assumption].
  apply Z.eqb_eq in Q. subst k. exfalso. apply N1. apply in_map_iff. exists (n, e). split; [reflexivity | exact J].
Qed.
Theorem parse_returns : forall E OD S pw file p f0, order_ok OD -> e_verbose E <> None -> s_input S = Some file -> (forall f, s_create S f = true) ->
  load f0 E (o_objects OD) file pw (new_parser file) = Ok (None, p) -> offsets_ok (pxref p) -> (forall n, exists o, target E file p n o) ->
  names_end E file p -> maps_end E file p -> exists F, forall fuel, (F <= fuel)%nat -> exists ops, parse E OD fuel S pw = (ops, Ok PNone).
Proof.
  intros E OD S pw file p f0 OK V In0 C L O T NE ME.
  assert (SP : sound file p) by (eapply tidy_load; [apply new_sound | exact L]). destruct SP as [W N].
  destruct (all_total E OD file p OK W O T NE ME V (o_xref OD (pxref p))) as [F H].
  { intros n e J. apply In_xget; [exact N |]. eapply Permutation_in; [apply Permutation_sym; apply (proj2 (proj2 OK)) | exact J]. }
  exists (f0 + F)%nat. intros fuel Lf. unfold parse. rewrite In0. unfold new_output, output_files. cbn [create_files]. rewrite !C.
  assert (L' : load fuel E (o_objects OD) file pw (new_parser file) = Ok (None, p)) by (destruct (load_mono f0 fuel ltac:(lia) E (o_objects OD) file pw (new_parser file)) as [X | X]; congruence).
  destruct (H fuel ltac:(lia) p (kept_refl _ _ W)) as (w & q & X & _).
  assert (B : parse_body E OD fuel file pw (new_parser file) = (w ++ [], Ok (None, q))).
  { unfold parse_body. rewrite (debug_ok E V). unfold xbind at 1. unfold xlift at 1, lift. unfold xbind at 1. unfold xlift at 1. rewrite L'. unfold xbind. rewrite X. reflexivity. }
  rewrite B. eexists. reflexivity.
Qed.

(** ** Documents whose references can all be followed *)
Section Followed.
  Variables (E : env) (file : bytes) (p : pst).
  Hypothesis W : reads file p.
  (** no stream object can be reached from itself (C15), and nothing panics *)
  Lemma ranked_targets : forall rank, offsets_ok (pxref p) ->
    (forall n v st m, stored E file p n v st -> refers m v -> (rank m <= rank n)%nat /\ (st -> (rank m < rank n)%nat)) ->
    (forall f n, Resolve f E file n p <> Panic) -> forall n, exists o, target E file p n o.
  Proof.
    intros rank O R NP n. destruct (resolve_ends E file p n rank W O R) as [f0 H]. specialize (H f0 (le_n _)). specialize (NP f0 n).
    destruct (Resolve f0 E file n p) as [[o q] | |] eqn:Q; [| congruence | congruence]. exists o, f0, q. exact Q.
  Qed.

  (** no streams, no encryption *)
  Hypothesis N : ~ occurs (lit "stream") file.
  Hypothesis C : sh_string (psh p) = CFNone.
  Lemma plain_object : forall f n q, kept file p q -> exists o q', get_object (S f) E file n q = Ok (o, q') /\ kept file p q' /\ istream o = None.
  Proof.
    intros f n q K. assert (R : exists o q', get_object (S f) E file n q = Ok (o, q') /\ istream o = None).
    { cbn [get_object]. destruct (xget n (pxref q)) as [e |]; [| eexists; eexists; split; reflexivity].
      destruct (x_type e =? XrefTypeIndirectObject); [| eexists; eexists; split; reflexivity]. rewrite get_in_use_eq.
      assert (K1 : wf file (snd (read_object_header (seek file (x_off e) (prd q))))).
      { apply (read_object_header_rel file (keeps file) (keeps_respects file) (seek file (x_off e) (prd q)) (seek file (x_off e) (prd q))). split; [reflexivity | apply seek_wf; exact (proj1 K)]. }
      replace (if x_enc e then sh_string (psh q) else CFNone) with CFNone by (destruct K as (_ & _ & _ & ->); rewrite C; destruct (x_enc e); reflexivity).
      destruct (read_object_returns file (new_decryptor E CFNone n (x_gen e)) _ K1) as (v & er & s2 & -> & W2 & _); [intros x; eexists; reflexivity |].
      unfold object_end. destruct (bseq (fst (read_keyword s2)) (lit "stream")) eqn:B; [| eexists; eexists; split; reflexivity]. exfalso. apply bseq_eq in B.
      destruct (keyword_in_file file s2 W2) as (a & b & X). apply N. exists a, b. rewrite B in X. exact X. }
    destruct R as (o & q' & G & I). exists o, q'. split; [exact G |]. split; [| exact I]. eapply kept_trans; [exact K | eapply GetObject_kept; [exact (proj1 K) | exact G]].
  Qed.
  Lemma plain_resolve : forall f seen n q, kept file p q -> match resolve f E file n seen q with Ok (o, q') => istream o = None /\ kept file p q' | Panic => False | OutOfFuel => True end.
  Proof.
    induction f as [| f IH]; intros seen n q K; [exact Logic.I |]. cbn [resolve]. destruct (zmem n seen); [split; [reflexivity | exact K] |]. unfold bind.
    destruct f as [| f]; [exact Logic.I |]. destruct (plain_object f n q K) as (o & q' & -> & K' & I). destruct (ival o); try (split; assumption). apply IH. exact K'.
  Qed.
  Lemma plain_Resolve : forall f n, match Resolve f E file n p with Ok (o, q') => istream o = None | Panic => False | OutOfFuel => True end.
  Proof.
    intros f n. unfold Resolve, restoring, bind. pose proof (plain_resolve f [] n p (kept_refl _ _ W)) as R. destruct (resolve f E file n [] p) as [[o q] | |]; try exact R. exact (proj1 R).
  Qed.
  Lemma plain_targets : forall n, exists o, target E file p n o.
  Proof.
    intros n. destruct (Resolve_ends' E file (psh p)) with (n := n) (p := p) as (f0 & _ & H).
    - intros m q [Wq _]. apply no_streams_fetched; assumption.
    - split; [exact W | reflexivity].
    - pose proof (plain_Resolve f0 n) as R. destruct (Resolve f0 E file n p) as [[o q] | |] eqn:Q; [| destruct R | destruct H]. exists o, f0, q. exact Q.
  Qed.
  Lemma plain_maps : maps_end E file p.
  Proof.
    intros c [h page res fonts k info c' _ _ _ _ _ (n & g & o & _ & (f & q & Q) & ->)]. pose proof (plain_Resolve f n) as R. rewrite Q in R. unfold stream_of. rewrite R. exact empty_moderate.
  Qed.
End Followed.

Theorem ranked_returns : forall E OD S pw file p f0 rank, order_ok OD -> e_verbose E <> None -> s_input S = Some file -> (forall f, s_create S f = true) ->
  load f0 E (o_objects OD) file pw (new_parser file) = Ok (None, p) -> offsets_ok (pxref p) ->
  (forall n v st m, stored E file p n v st -> refers m v -> (rank m <= rank n)%nat /\ (st -> (rank m < rank n)%nat)) ->
  (forall f n, Resolve f E file n p <> Panic) ->
  names_end E file p -> maps_end E file p -> exists F, forall fuel, (F <= fuel)%nat -> exists ops, parse E OD fuel S pw = (ops, Ok PNone).
Proof.
  intros E OD S pw file p f0 rank OK V I C L O R NP NE ME. apply (parse_returns E OD S pw file p f0); try assumption. apply (ranked_targets E file p) with (rank := rank); try assumption.
  apply (tidy_load file f0 E (o_objects OD) pw (new_parser file) None p (new_sound file) L).
Qed.
Theorem streamless_ends : forall E OD S pw file, order_ok OD -> e_verbose E <> None -> s_input S = Some file -> ~ occurs (lit "stream") file ->
  (forall f p, load f E (o_objects OD) file pw (new_parser file) = Ok (None, p) -> sh_string (psh p) = CFNone /\ offsets_ok (pxref p) /\ names_end E file p) ->
  exists F, forall fuel, (F <= fuel)%nat -> snd (parse E OD fuel S pw) <> OutOfFuel.
Proof.
  intros E OD S pw file OK V I N H. destruct (load_ends_no_streams E file (o_objects OD) pw N) as [f0 L0].
  destruct (forallb (s_create S) output_files) eqn:CR.
  2: { exists 0%nat. intros fuel _. unfold parse. rewrite I. assert (Q : snd (new_output S) = false).
       { unfold new_output. assert (G : forall l, forallb (s_create S) l = false -> snd (create_files S l) = false).
         { induction l as [| x l IH]; [discriminate |]. cbn [forallb create_files]. destruct (s_create S x); [| reflexivity]. cbn [andb]. intros X. specialize (IH X). destruct (create_files S l) as [[a b] c]. exact IH. }
         specialize (G _ CR). destruct (create_files S output_files) as [[a b] c]. exact G. }
       destruct (new_output S) as [[a b] c]. cbn [snd] in Q. subst c. discriminate. }
  assert (C : forall f, s_create S f = true) by (intros f; rewrite forallb_forall in CR; apply CR; destruct f; cbn; tauto).
  destruct (load f0 E (o_objects OD) file pw (new_parser file)) as [[[e |] p] | |] eqn:L; [| | | exfalso; exact (L0 f0 (le_n _) L)].
  - exists f0. intros fuel Lf. unfold parse. rewrite I. destruct (new_output S) as [[a b] c]. destruct c; [| discriminate].
    assert (L' : load fuel E (o_objects OD) file pw (new_parser file) = Ok (Some e, p)) by (destruct (load_mono f0 fuel ltac:(lia) E (o_objects OD) file pw (new_parser file)) as [X | X]; congruence).
    unfold parse_body. rewrite (debug_ok E V). unfold xbind at 1. unfold xlift at 1, lift. unfold xbind at 1. unfold xlift at 1. rewrite L'. discriminate.
  - destruct (H f0 p L) as (CF & O & NE).
    assert (W : reads file p) by (apply (tidy_load file f0 E (o_objects OD) pw (new_parser file) None p (new_sound file) L)).
    destruct (parse_returns E OD S pw file p f0 OK V I C L O (plain_targets E file p W N CF) NE (plain_maps E file p W N CF)) as [F R].
    exists F. intros fuel Lf. destruct (R fuel Lf) as [ops ->]. discriminate.
  - exists f0. intros fuel Lf. unfold parse. rewrite I. destruct (new_output S) as [[a b] c]. destruct c; [| discriminate].
    assert (L' : load fuel E (o_objects OD) file pw (new_parser file) = Panic) by (destruct (load_mono f0 fuel ltac:(lia) E (o_objects OD) file pw (new_parser file)) as [X | X]; congruence).
    unfold parse_body. rewrite (debug_ok E V). unfold xbind at 1. unfold xlift at 1, lift. unfold xbind at 1. unfold xlift at 1. rewrite L'. discriminate.
Qed.
