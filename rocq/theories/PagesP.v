(** PagesP.v -- the text of every page is extracted (C73). *)
From Verif Require Import Base BaseP Msg Reader ReaderP Num Lexer Obj ReadObj Env Getters Crypt GetObj Font Page Tree Output Render Extract Load Parse
  RelP ReadP GetObjP SpecRead FetchP LookP SecurityP CryptObjP TreeP LoadInvP OutP OutTopP RawP ExtractP SourceP AttachP FuelP TextP PageP CMapP
  SpecFetch SpecLook SpecTree SpecOut SpecSource SpecLex SpecLexP SpecObj SpecText SpecPage SpecPages.
From Coq Require Import Strings.String Sorting.Permutation.
Local Open Scope x_scope.

(** ** Fonts with the same mapping *)
Definition same_font (f g : (Z -> option bytes) * Z) : Prop := snd f = snd g /\ forall c, fst f c = fst g c.
Definition same_opt (f g : option ((Z -> option bytes) * Z)) : Prop :=
  match f, g with Some a, Some b => same_font a b | None, None => True | _, _ => False end.
Lemma decoded_ext : forall f g s t, same_font f g -> decoded (fst f) (snd f) s t -> decoded (fst g) (snd g) s t.
Proof.
  intros f g s t [H1 H2] D. rewrite H1 in D. induction D as [b L | c r v out L M D IH | c r out L M D IH].
  - apply de_end. exact L.
  - apply de_mapped; [exact L | rewrite <- H2; exact M | exact IH].
  - apply de_kept; [exact L | rewrite <- H2; exact M | exact IH].
Qed.
Lemma text_ext : forall fs gs tj, (forall n, same_opt (fs n) (gs n)) -> forall st cs ls, text fs tj st cs ls -> forall st', same_opt st st' -> text gs tj st' cs ls.
Proof.
  intros fs gs tj H st cs ls T.
  assert (FN : forall n, same_font (font_named fs n) (font_named gs n)).
  { intros n. unfold font_named. specialize (H n). destruct (fs n), (gs n); try contradiction; [exact H | split; reflexivity]. }
  induction T as [f | ops cs ls T IH | k ops cs ls K T IH | f ops cs ls T IH | f ops cs ls T IH | f k ops t cs ls LN T IH | f k ops cs ls SI T IH]; intros st' Q.
  - apply tx_end.
  - destruct st' as [g |]; [contradiction |]. apply tx_begin. apply IH. split; reflexivity.
  - destruct st' as [g |]; [contradiction |]. apply tx_outside; [exact K |]. apply IH. exact Q.
  - destruct st' as [g |]; [| contradiction]. apply tx_finish. apply IH. exact I.
  - destruct st' as [g |]; [| contradiction]. apply tx_font. apply IH. apply FN.
  - destruct st' as [g |]; [| contradiction]. apply tx_line; [| apply IH; exact Q]. destruct LN as [k ops t SH D | ops t D]; constructor; try assumption; eapply decoded_ext; eassumption.
  - destruct st' as [g |]; [| contradiction]. apply tx_silent; [exact SI | apply IH; exact Q].
Qed.

(** ** Character maps of single codes *)
Lemma last_one : forall A (P : A -> Prop) a m b a' m' b', a ++ m :: b = a' ++ m' :: b' -> P m -> P m' -> Forall (fun x => ~ P x) b -> Forall (fun x => ~ P x) b' -> m = m'.
Proof.
  intros A P. induction a as [| x a IH]; intros m b a' m' b' Q Pm Pm' F F'; destruct a' as [| y a']; cbn [app] in Q; injection Q as Q1 Q2.
  - exact Q1.
  - subst y b. exfalso. apply Forall_app in F. destruct F as [_ F]. inversion F. contradiction.
  - subst x. rewrite <- Q2 in F'. exfalso. apply Forall_app in F'. destruct F' as [_ F']. inversion F'. contradiction.
  - eapply IH; eassumption.
Qed.
Lemma mapped_det : forall what ms c x y, mapped what ms c x -> mapped what ms c y -> x = y.
Proof.
  assert (G : forall what (ms : list mapping) c (x : option bytes) y, (Forall (fun m => ~ covers m c) ms /\ x = None) ->
    (exists a m b, ms = a ++ m :: b /\ covers m c /\ Forall (fun m => ~ covers m c) b /\ y = Some (what m)) -> x = y).
  { intros what ms c x y [F _] (a & m & b & -> & C & _). exfalso. apply Forall_app in F. destruct F as [_ F]. inversion F. contradiction. }
  intros what ms c x y [A | A] [B | B].
  - destruct A as [_ ->], B as [_ ->]. reflexivity.
  - eapply G; eassumption.
  - symmetry. eapply G; eassumption.
  - destruct A as (a & m & b & -> & C & F & ->), B as (a' & m' & b' & Q & C' & F' & ->). f_equal. f_equal.
    eapply (last_one _ (fun m => covers m c)); eassumption.
Qed.
Lemma plus_zero : forall v, v <> [] -> plus v 0 = v.
Proof. intros v N. unfold plus. rewrite Z.add_0_r, zb_bv. symmetry. apply app_removelast_last. exact N. Qed.
Lemma single_says : forall m c, single m -> covers m c -> says m c = taken m.
Proof.
  intros [k v | lo hi v] c H C; [reflexivity |]. cbn [single covers says taken] in *. destruct H as [H N]. replace (c - code lo) with 0 by lia. apply plus_zero. exact N.
Qed.
Lemma mapped_single : forall ms c x, Forall single ms -> mapped (fun m => says m c) ms c x -> mapped taken ms c x.
Proof.
  intros ms c x S1 [A | (a & m & b & Q & C & F & R)]; [left; exact A |]. right. exists a, m, b. repeat split; try assumption. rewrite R. f_equal.
  apply single_says; [| exact C]. rewrite Forall_forall in S1. apply S1. rewrite Q. apply in_or_app. right. left. reflexivity.
Qed.

Section Must.
  Variables (E : env) (OD : order) (file : bytes) (fuel : nat) (p : pst).
  Hypothesis OK : order_ok OD.
  Hypothesis W : reads file p.
  Hypothesis O : offsets_ok (pxref p).
  Let rs := Resolve fuel E file.

  (** ** Loading fonts *)
  Definition built (fonts : dict) (n : bytes) (f : font) : Prop :=
    exists info c, dict_at E file p fonts n info /\ stream_at E file p info (lit "ToUnicode") c /\ cmap_font fuel E c = Ok f.
  Lemma stream_answered : forall x r, stream_answer E file p x r -> referred E file p x (stream_bytes (fst r)) \/ (no_reference x /\ stream_bytes (fst r) = []).
  Proof. intros x [s ok] [[_ R] | [Q N]]; [left; exact R | right; split; [exact N |]]. injection Q as -> _. reflexivity. Qed.
  Lemma new_font_got : forall fonts n, got file p (bind (d_dict rs fonts n) (fun '(info, _) => new_font fuel E rs info)) (fun f q => built fonts n f /\ kept file p q).
  Proof.
    intros fonts n. eapply got_bind; [apply (dict_got E file fuel p W O) |]. intros [info ok] A. apply answer_or in A. cbn [fst] in A.
    unfold new_font. eapply got_bind; [apply (stream_got E file fuel p W O) |]. intros [c ok'] B. apply stream_answered in B. cbn [fst] in B.
    apply got_lift. intros f q K CF. split; [| exact K]. exists info, (stream_bytes c). split; [exact A |]. split; [exact B |]. exact CF.
  Qed.
  Lemma load_fonts_got : forall fonts names fm, got file p (load_fonts E rs fuel names fonts fm)
    (fun r q => (forall n, (In n names -> exists f, mget bseq n r = Some f /\ built fonts n f) /\ (~ In n names -> mget bseq n r = mget bseq n fm)) /\ kept file p q).
  Proof.
    intros fonts. induction names as [| k names IH]; intros fm.
    - cbn [load_fonts]. apply got_ret. intros q K. split; [| exact K]. intros n. split; [intros [] | intros _; reflexivity].
    - assert (G : got file p (bind (bind (d_dict rs fonts k) (fun '(info, _) => new_font fuel E rs info)) (fun f => load_fonts E rs fuel names fonts (mset bseq k f fm)))
        (fun r q => (forall n, (In n (k :: names) -> exists f, mget bseq n r = Some f /\ built fonts n f) /\ (~ In n (k :: names) -> mget bseq n r = mget bseq n fm)) /\ kept file p q)).
      { eapply got_bind; [apply new_font_got |]. intros f B. eapply got_weaken; [apply IH |]. intros r q [H K]. split; [| exact K]. intros n. destruct (H n) as [H1 H2].
        destruct (in_dec (list_eq_dec Byte.byte_eq_dec) n names) as [J | J].
        - split; [intros _; apply H1; exact J | intros N; exfalso; apply N; right; exact J].
        - rewrite (H2 J). split.
          + intros [<- | J']; [| contradiction]. exists f. split; [apply (mget_mset_same bseq bseq_ok) | exact B].
          + intros N. apply (mget_mset_other bseq bseq_ok). intros ->. apply N. left. reflexivity. }
      intros q r q' K H. apply (G q r q' K). rewrite <- H. cbn [load_fonts]. unfold bind. destruct (d_dict rs fonts k q) as [[[info ok] q1]| |]; reflexivity.
  Qed.
  Lemma dict_at_det : forall d k e e', dict_at E file p d k e -> dict_at E file p d k e' -> e = e'.
  Proof. intros d k e e'. apply typed_or_det. apply is_dict_fun. Qed.
  Lemma stream_at_det : forall d k s s', stream_at E file p d k s -> stream_at E file p d k s' -> s = s'.
  Proof.
    intros d k s s' [R | [N ->]] [R' | [N' ->]]; try reflexivity; [eapply referred_det; eassumption | |];
      exfalso; [destruct R as (n & g & o & Q & _) | destruct R' as (n & g & o & Q & _)]; eapply N' || eapply N; exact Q.
  Qed.
  Lemma built_font : forall fonts n f v, built fonts n f -> font_at E file p fonts n v -> same_font v (view f).
  Proof.
    intros fonts n f v (info & c & A & B & CF) (info' & c' & ms & A' & B' & CM & BD & SG & WD & MP).
    assert (info' = info) by (eapply dict_at_det; eassumption). subst info'. assert (c' = c) by (eapply stream_at_det; eassumption). subst c'.
    destruct (cmap_loaded E c ms CM BD) as (F & H). destruct (H (Nat.max F fuel) ltac:(lia)) as (f' & CF' & WD' & MP').
    destruct (cmap_font_mono fuel (Nat.max F fuel) E c ltac:(lia)) as [Q | Q]; [congruence |]. assert (f' = f) by congruence. subst f'.
    split; [unfold view; cbn [snd]; congruence |]. intros x. unfold view. cbn [fst]. eapply mapped_det; [apply mapped_single; [exact SG | apply MP] | apply MP'].
  Qed.
  Lemma built_sound : forall fonts n f, built fonts n f -> 1 <= f_width f.
  Proof. intros fonts n f (info & c & _ & _ & CF). eapply new_font_width. exact CF. Qed.

  (** ** Content streams *)
  (** a run that ends normally writes just [w0] *)
  Definition just {A} (m : X A) (w0 : list ev) : Prop := forall q w a q', kept file p q -> m q = (w, Ok (a, q')) -> w = w0 /\ kept file p q'.
  Lemma just_ret : forall A (a : A), just (xret a) [].
  Proof. intros A a q w b q' K H. unfold xret in H. injection H as <- _ <-. split; [reflexivity | exact K]. Qed.
  Lemma just_bind : forall A B (m : X A) (k : A -> X B) w1 w2, just m w1 -> (forall a, just (k a) w2) -> just (xbind m k) (w1 ++ w2).
  Proof.
    intros A B m k w1 w2 H1 H2 q w b q' K H. apply RawP.xbind_ok in H. destruct H as (x & a & q1 & y & R1 & R2 & ->).
    destruct (H1 _ _ _ _ K R1) as [-> K1]. destruct (H2 a _ _ _ _ K1 R2) as [-> K2]. split; [reflexivity | exact K2].
  Qed.
  Lemma just_about : forall A B (m : M A) (k : A -> X B) (Q : A -> Prop) w0, got file p m (fun r q => Q r /\ kept file p q) -> (forall a, Q a -> just (k a) w0) -> just (xbind (xlift m) k) w0.
  Proof.
    intros A B m k Q w0 G H q w b q' K R. apply RawP.xbind_ok in R. destruct R as (x & a & q1 & y & R1 & R2 & ->). unfold xlift in R1. injection R1 as <- R1.
    destruct (G _ _ _ K R1) as [HQ K1]. exact (H a HQ _ _ _ _ K1 R2).
  Qed.
  Lemma just_pure : forall A (x : list ev * res A) w0, (forall w a, x = (w, Ok a) -> w = w0) -> just (xpure x) w0.
  Proof.
    intros A [w r] w0 H q w' a q' K R. unfold xpure in R. cbn [fst snd] in R. destruct r as [b | |]; try discriminate. injection R as <- _ <-. split; [eapply H; reflexivity | exact K].
  Qed.
  Lemma just_eq : forall A (m : X A) w w', just m w -> w = w' -> just m w'.
  Proof. intros A m w w' H <-. exact H. Qed.
  Lemma lines_app : forall a b, lines (a ++ b) = lines a ++ lines b.
  Proof. intros. apply flat_map_app. Qed.

  Lemma page_text_just : forall fs fm s ls, sound_fonts fm -> (forall n, same_opt (fs n) (named fm n)) -> stream_lines fs s ls -> just (xpure (page_text fuel E fm s)) (lines ls).
  Proof.
    intros fs fm s ls SF SM (l & cs & TK & CO & AL & TX). apply just_pure. intros w a H.
    destruct (page_text_complete E fm s l cs ls SF TK CO AL) as (F & G); [eapply text_ext; [exact SM | exact TX | exact I] |].
    destruct (page_text_mono fuel (Nat.max F fuel) E fm s ltac:(lia)) as [Q | Q]; [rewrite H in Q; discriminate |].
    rewrite (G (Nat.max F fuel)) in Q by lia. congruence.
  Qed.
  Lemma contents_array_just : forall fs fm a, sound_fonts fm -> (forall n, same_opt (fs n) (named fm n)) -> forall r pre ss lss, a = pre ++ r -> streams_in E file p r ss -> Forall2 (stream_lines fs) ss lss ->
    just (contents_array E rs fuel (List.length r) (zlen pre) fm a) (lines (List.concat lss)).
  Proof.
    intros fs fm a SF SM r pre ss lss Q SI. revert pre lss Q. induction SI as [| x l s ss R SI IH | x l ss N SI IH]; intros pre lss Q F.
    - inversion F; subst. apply just_ret.
    - inversion F as [| ? ls ? lss' L1 L2]; subst. cbn [List.length contents_array]. eapply just_about; [apply (el_stream_got E file fuel p W O) |].
      intros [c ok] A. rewrite <- zget_element, zget_mid in A. destruct A as [[Z0 R'] | [_ N]]; [| exfalso; destruct R as (n & g & o & Q' & _); eapply N; exact Q'].
      cbn [fst snd] in *. subst ok. cbn [List.concat]. rewrite lines_app. apply just_bind.
      + assert (stream_bytes c = s) by (eapply referred_det; eassumption). subst s. eapply page_text_just; eassumption.
      + intros _. rewrite <- zlen_snoc with (x := x). apply IH; [rewrite <- app_assoc; reflexivity | exact L2].
    - subst a. cbn [List.length contents_array]. eapply just_about; [apply (el_stream_got E file fuel p W O) |].
      intros [c ok] A. rewrite <- zget_element, zget_mid in A. destruct A as [[_ (n & g & o & Q' & _)] | [Z0 _]]; [exfalso; eapply N; exact Q' |].
      injection Z0 as -> ->. apply (just_bind _ _ _ _ [] (lines (List.concat lss))); [apply just_ret |]. intros _. rewrite <- zlen_snoc with (x := x).
      apply IH; [rewrite <- app_assoc; reflexivity | exact F].
  Qed.
  Lemma page_extract_just : forall st d ls, page_lines E file p d ls -> just (page_extract E OD rs fuel st d) (lines ls).
  Proof.
    intros st d ls (fs & ss & lss & (res & R1 & fonts & R2 & FT) & CT & SL & ->). unfold page_extract.
    eapply just_about; [apply (dict_got E file fuel p W O) |]. intros [res' ok1] A1. apply answer_or in A1. cbn [fst] in A1.
    assert (res' = res) by (eapply dict_at_det; eassumption). subst res'.
    eapply just_about; [apply (dict_got E file fuel p W O) |]. intros [fonts' ok2] A2. apply answer_or in A2. cbn [fst] in A2.
    assert (fonts' = fonts) by (eapply dict_at_det; eassumption). subst fonts'.
    eapply just_about; [apply load_fonts_got |]. intros fm LF.
    assert (KEY : forall n, In n (o_map OD st bytes (map fst fonts)) <-> In n (map fst fonts)).
    { intros n. split; apply Permutation_in; [apply Permutation_sym |]; apply (proj1 OK). }
    assert (SF : sound_fonts fm).
    { intros n f Q. destruct (LF n) as [L1 L2]. destruct (in_dec (list_eq_dec Byte.byte_eq_dec) n (o_map OD st bytes (map fst fonts))) as [J | J].
      - destruct (L1 J) as (f' & Q' & B). assert (f' = f) by congruence. subst. eapply built_sound. exact B.
      - rewrite (L2 J) in Q. discriminate. }
    assert (SM : forall n, same_opt (fs n) (named fm n)).
    { intros n. destruct (LF n) as [L1 L2]. destruct (FT n) as [(J & v & Q & FA) | [J Q]]; rewrite Q; unfold named.
      - destruct (L1 (proj2 (KEY n) J)) as (f & Q' & B). rewrite Q'. cbn [option_map same_opt]. eapply built_font; eassumption.
      - rewrite L2; [exact I |]. intros J'. apply J. apply KEY. exact J'. }
    eapply just_about; [apply (stream_got E file fuel p W O) |]. intros [c ok] A. destruct CT as [s R | a ss Q SI | N U].
    - destruct A as [[Z0 R'] | [_ N]]; [| exfalso; destruct R as (n & g & o & Q' & _); eapply N; exact Q']. cbn [fst snd] in *. subst ok.
      inversion SL as [| ? ls ? lss' L1 L2]; subst. inversion L2; subst. cbn [List.concat]. rewrite app_nil_r.
      assert (stream_bytes c = s) by (eapply referred_det; eassumption). subst s. eapply page_text_just; eassumption.
    - destruct A as [[_ (n & g & o & Q' & _)] | [Z0 _]]; [rewrite Q in Q'; discriminate |]. injection Z0 as -> ->. cbv iota.
      eapply just_about; [apply (array_got E file fuel p W O) |]. intros [a' ok] A.
      assert (T : typed E file p is_array (entry d (lit "Contents")) a) by (exists (OArr a); split; [rewrite Q; apply v_direct; discriminate | reflexivity]).
      destruct A as [[T' Z0] | [U _]]; [| exfalso; eapply typed_untyped; eassumption]. cbn [fst snd] in *. subst ok.
      assert (a' = a) by (eapply typed_det; [apply is_array_fun | exact T' | exact T]). subst a'.
      apply (contents_array_just fs fm a SF SM a [] ss lss eq_refl SI SL).
    - destruct A as [[_ (n & g & o & Q' & _)] | [Z0 _]]; [exfalso; eapply N; exact Q' |]. injection Z0 as -> ->. cbv iota. inversion SL; subst.
      eapply just_about; [apply (array_got E file fuel p W O) |]. intros [a' ok] A. destruct A as [[T' Z0] | [_ Z0]]; [exfalso; eapply typed_untyped; eassumption |].
      injection Z0 as -> ->. apply just_ret.
  Qed.
  Lemma pages_loop_just : forall st ds lss, Forall2 (page_lines E file p) ds lss -> forall i, just (pages_loop E OD rs fuel st i ds) (lines (List.concat lss)).
  Proof.
    intros st ds lss F. induction F as [| d ls ds lss H F IH]; intros i; cbn [pages_loop List.concat]; [apply just_ret |]. rewrite lines_app.
    apply just_bind; [apply page_extract_just; exact H | intros _; apply IH].
  Qed.

  (** ** The page tree *)
  Lemma walk_got : forall f,
    (forall d s ks, array_at E file p d "Kids" ks -> got file p (resolve_kids rs f d s)
       (fun r q => (exists vs, walk E file p ks s vs (snd r) /\ fst r = d :: map snd vs) /\ kept file p q)) /\
    (forall ks acc s, got file p (page_kids rs f ks acc s) (fun r q => (exists vs, walk E file p ks s vs (snd r) /\ fst r = acc ++ map snd vs) /\ kept file p q)).
  Proof.
    induction f as [| f [IH1 IH2]]; [split; intros; intros ? ? ? ? X; discriminate X |]. split.
    - intros d s ks A. cbn [resolve_kids]. eapply got_bind; [apply (known_array E file fuel p W O); exact A |]. intros [kids ok] [Q Q']. cbn [fst snd] in *. subst kids. destruct ok.
      + eapply got_weaken; [apply IH2 |]. intros r q H. exact H.
      + rewrite (Q' eq_refl). apply got_ret. intros q K. split; [| exact K]. exists []. split; [constructor | reflexivity].
    - intros ks acc s. cbn [page_kids]. destruct ks as [| x ks]; [apply got_ret; intros q K; split; [| exact K]; exists []; split; [constructor | symmetry; apply app_nil_r] |].
      assert (OTHER : (forall n g, x <> ORef n g) -> got file p (page_kids rs f ks acc s) (fun r q => (exists vs, walk E file p (x :: ks) s vs (snd r) /\ fst r = acc ++ map snd vs) /\ kept file p q)).
      { intros N. eapply got_weaken; [apply IH2 |]. intros r q [(vs & A & B) K]. split; [| exact K]. exists vs. split; [constructor; assumption | exact B]. }
      destruct x as [v | v | v | v | n g | l | d]; try (apply OTHER; discriminate). clear OTHER. destruct (zmem n s) eqn:ZM.
      + apply zmem_In in ZM. eapply got_weaken; [apply IH2 |]. intros r q [(vs & A & B) K]. split; [| exact K]. exists vs. split; [apply wk_seen; assumption | exact B].
      + apply zmem_not in ZM. eapply got_bind; [apply (target_got E file p W O) |]. intros o T.
        assert (SKIP : (forall d, ival o <> ODict d) -> got file p (page_kids rs f ks acc (n :: s)) (fun r q => (exists vs, walk E file p (ORef n g :: ks) s vs (snd r) /\ fst r = acc ++ map snd vs) /\ kept file p q)).
        { intros N. eapply got_weaken; [apply IH2 |]. intros r q [(vs & A & B) K]. split; [| exact K]. exists vs. split; [| exact B]. apply wk_skip; [exact ZM | | exact A].
          intros d (o' & T' & V). assert (o' = o) by (eapply target_det; eassumption). subst. eapply N. exact V. }
        destruct (ival o) as [v | v | v | v | m h | l | d] eqn:V; try (apply SKIP; discriminate). clear SKIP.
        assert (KD : forall q l q', kept file p q -> resolve_kids rs f d (n :: s) q = Ok (l, q') -> exists ks', array_at E file p d "Kids" ks').
        { intros q l q' K H. destruct f as [| f']; [discriminate |]. cbn [resolve_kids] in H. unfold bind in H. destruct (d_array rs d (lit "Kids") q) as [[[kids ok] q1]| |] eqn:D; try discriminate.
          destruct (array_got E file fuel p W O d (lit "Kids") q _ _ K D) as [A _]. apply answer_or in A. exists kids. exact A. }
        intros q r q' K H. change (bind (resolve_kids rs f d (n :: s)) (fun '(l, seen) => page_kids rs f ks (acc ++ l) seen) q = Ok (r, q')) in H. unfold bind in H. destruct (resolve_kids rs f d (n :: s) q) as [[[l s1] q1]| |] eqn:R; try discriminate.
        destruct (KD _ _ _ K R) as (ks' & A). destruct (IH1 d (n :: s) ks' A _ _ _ K R) as [(vs1 & W1 & Q1) K1]. cbn [fst snd] in *.
        destruct (IH2 ks (acc ++ l) s1 _ _ _ K1 H) as [(vs2 & W2 & Q2) K2]. split; [| exact K2]. exists ((n, d) :: vs1 ++ vs2). split.
        * eapply wk_page; [exact ZM | exists o; split; [exact T | exact V] | exact A | exact W1 | exact W2].
        * rewrite Q2, Q1. cbn [map snd]. rewrite map_app, <- app_assoc. reflexivity.
  Qed.
  Lemma page_tree_got : forall h pages, pages_of E file p h pages -> got file p (page_tree rs fuel h (lit "Pages")) (fun r q => r = (pages, true) /\ kept file p q).
  Proof.
    intros h pages (root & ks & ts & T & A & U & ->). unfold page_tree. eapply got_bind; [apply (dict_known E file fuel p W O); exact T |]. intros r ->. cbv beta iota.
    eapply got_bind; [apply (proj1 (walk_got fuel)); exact A |]. intros [l s'] (vs & WK & Q). cbn [fst snd] in *. subst l. apply got_ret. intros q K. split; [| exact K].
    f_equal. f_equal. f_equal. destruct (walk_order E file p _ _ _ _ WK [] ts U) as [Z0 _]; [intros x [] | intros m d ks' n g [] | exact Z0].
  Qed.
  Lemma page_text_of_just : forall st h pages lss, pages_of E file p h pages -> Forall2 (page_lines E file p) pages lss ->
    just (page_text_of E OD rs fuel st h) (lines (List.concat lss)).
  Proof.
    intros st h pages lss PG F. unfold page_text_of. eapply just_about; [apply page_tree_got; exact PG |]. intros r ->. cbv beta iota. apply pages_loop_just. exact F.
  Qed.
End Must.

(** ** Blocks of output *)
Section Block.
  Variables (E : env) (OD : order) (file : bytes) (fuel : nat) (p : pst).
  Hypothesis OK : order_ok OD.
  Hypothesis O : offsets_ok (pxref p).
  Let rs := Resolve fuel E file.

  (** every run that ends normally writes [w0] in one piece *)
  Definition block {A} (m : X A) (w0 : list ev) : Prop := forall q w a q', kept file p q -> m q = (w, Ok (a, q')) -> exists x y, w = x ++ w0 ++ y.
  Lemma just_block : forall A (m : X A) w0, just file p m w0 -> block m w0.
  Proof. intros A m w0 H q w a q' K R. destruct (H _ _ _ _ K R) as [-> _]. exists [], []. symmetry. apply app_nil_r. Qed.
  Lemma block_left : forall A B (m : X A) (k : A -> X B) w0, block m w0 -> block (xbind m k) w0.
  Proof.
    intros A B m k w0 H q w b q' K R. apply RawP.xbind_ok in R. destruct R as (w1 & a & q1 & w2 & R1 & R2 & ->). destruct (H _ _ _ _ K R1) as (x & y & ->).
    exists x, (y ++ w2). rewrite <- !app_assoc. reflexivity.
  Qed.
  Lemma block_right : forall A B (m : X A) (k : A -> X B) w0, calm file m -> (forall a, block (k a) w0) -> block (xbind m k) w0.
  Proof.
    intros A B m k w0 C H q w b q' K R. apply RawP.xbind_ok in R. destruct R as (w1 & a & q1 & w2 & R1 & R2 & ->).
    destruct (H a _ _ _ _ (calm_kept file p _ m C _ _ _ _ K R1) R2) as (x & y & ->). exists (w1 ++ x), y. rewrite <- !app_assoc. reflexivity.
  Qed.
  Lemma block_known : forall A B (m : M A) (k : A -> X B) a w0, got file p m (fun r q => r = a /\ kept file p q) -> block (k a) w0 -> block (xbind (xlift m) k) w0.
  Proof.
    intros A B m k a w0 G H q w b q' K R. apply RawP.xbind_ok in R. destruct R as (w1 & a1 & q1 & w2 & R1 & R2 & ->).
    unfold xlift in R1. injection R1 as <- R1. destruct (G _ _ _ K R1) as [-> K1]. exact (H _ _ _ _ K1 R2).
  Qed.
  Lemma block_seq : forall l m w0, In m l -> (forall m', In m' l -> calm file m') -> block m w0 -> block (xseq l) w0.
  Proof.
    induction l as [| m0 l IH]; intros m w0 I C H; [destruct I |]. cbn [xseq]. destruct I as [-> | I]; [apply block_left; exact H |].
    apply block_right; [apply C; left; reflexivity |]. intros _. eapply IH; [exact I | | exact H]. intros m' I'. apply C. right. exact I'.
  Qed.
  Lemma pages_block : forall st l i d w0, In d l -> (forall st, block (page_extract E OD rs fuel st d) w0) -> block (pages_loop E OD rs fuel st i l) w0.
  Proof.
    intros st. induction l as [| e l IH]; intros i d w0 J H; [destruct J |]. cbn [pages_loop]. destruct J as [-> | J]; [apply block_left; apply H |].
    apply block_right; [apply page_extract_still |]. intros _. eapply IH; eassumption.
  Qed.
  Lemma text_here : forall st d w0, block (page_text_of E OD rs fuel st d) w0 -> block (extract_here E OD rs fuel st d) w0.
  Proof.
    intros st d w0 H. unfold extract_here.
    apply block_right; [apply action_at_still | intros _]. apply block_right; [apply action_at_still | intros _].
    apply block_right; [apply additional_actions_still | intros _]. apply block_right; [apply forms_still | intros _].
    apply block_right; [apply embedded_files_still | intros _]. apply block_right; [unfold javascript; apply javascript_still | intros _].
    apply block_left. exact H.
  Qed.
  Lemma held_block : forall o d, holds o d -> forall w0, (forall st, block (extract_here E OD rs fuel st d) w0) ->
    forall st, block (extract E OD rs fuel st o) w0.
  Proof.
    intros o d H w0 A. induction H as [d | k x d e' I H IH | x l e' I H IH]; intros st.
    - rewrite extract_dict. apply block_left. apply A.
    - rewrite extract_dict. apply block_right; [apply extract_here_still; exact OK |]. intros _.
      destruct (extracts_in E OD rs fuel x 3 st (map snd d) 0) as (st' & J); [apply in_map_iff; exists (k, x); auto |].
      eapply block_seq; [| | apply IH; exact A].
      + eapply Permutation_in; [apply (proj1 OK) | exact J].
      + intros m' I'. apply (Permutation_in m' (Permutation_sym (proj1 OK (2 :: st) _ _))) in I'. apply in_extracts in I'. destruct I' as (st2 & y & _ & ->).
        apply extract_still. exact OK.
    - rewrite extract_array. destruct (extracts_in E OD rs fuel x 4 st l 0 I) as (st' & J).
      eapply block_seq; [exact J | | apply IH; exact A]. intros m' I'. apply in_extracts in I'. destruct I' as (st2 & y & _ & ->).
      apply extract_still. exact OK.
  Qed.
  Lemma extract_one_block : forall n o en w0, x_type en = 1 -> fetched E file p n o ->
    (forall st, block (object_extract E OD (Resolve fuel E file) fuel st o) w0) -> block (extract_one E OD fuel file (n, en)) w0.
  Proof.
    intros n o en w0 T F H. unfold extract_one. rewrite T. change (1 =? XrefTypeIndirectObject) with true. cbv iota.
    apply block_right; [apply xstill_lift, lift_still |]. intros _. eapply (block_known _ _ _ _ o); [| apply block_left; apply H].
    intros q o' q' K G. split; [| eapply kept_trans; [exact K | eapply GetObject_kept; [exact (proj1 K) | exact G]]].
    destruct (fetched_at E file p q n o (kept_alike _ _ _ K) (fun e' X T' => O n e' X T') F) as (f0 & Hf).
    eapply fetched_det; [exists fuel, q'; exact G |]. destruct (Hf f0 (le_n _)) as (q2 & Q). exists f0, q2. exact Q.
  Qed.
  Lemma extract_all_block : forall l kv w0, In kv l -> block (extract_one E OD fuel file kv) w0 -> block (extract_all E OD fuel file l) w0.
  Proof.
    induction l as [| kv0 l IH]; intros kv w0 I H; [destruct I |]. cbn [extract_all]. destruct I as [-> | I]; [apply block_left; exact H |].
    intros q w a q' K R. apply RawP.xbind_ok in R. destruct R as (w1 & a1 & q1 & w2 & R1 & R2 & ->).
    destruct (IH kv w0 I H _ _ _ _ (extract_one_calm E OD file fuel p OK _ _ _ _ _ K R1) R2) as (x & y & ->). exists (w1 ++ x), y. rewrite <- !app_assoc. reflexivity.
  Qed.
End Block.

Lemma parse_block : forall E OD fuel S pw ops file p, order_ok OD -> s_input S = Some file ->
  parse E OD fuel S pw = (ops, Ok PNone) -> load fuel E (o_objects OD) file pw (new_parser file) = Ok (None, p) -> offsets_ok (pxref p) ->
  forall n o d h w0, in_use p n -> fetched E file p n o -> ival o = ODict d -> holds (ODict d) h ->
    (forall st, block file p (extract_here E OD (Resolve fuel E file) fuel st h) w0) -> written_out w0 ops.
Proof.
  intros E OD fuel S pw ops file p OK I P L Of n o d h w0 (en & X & T) F V H Wr.
  assert (SP : sound file p) by (eapply tidy_load; [apply new_sound | exact L]). destruct SP as [W N].
  unfold parse in P. rewrite I in P. destruct (new_output S) as [[ops1 opened] ok]. destruct ok; [| discriminate].
  destruct (parse_body E OD fuel file pw (new_parser file)) as [w [[[e' |] q]| |]] eqn:B; try discriminate.
  destruct (body_ok _ _ _ _ _ _ _ _ _ B) as (p1 & L1 & Y & _). assert (p1 = p) by congruence. subst p1. destruct (Y eq_refl) as (u & Z).
  assert (ops = ops1 ++ map OpEv w ++ close_output opened) by congruence. subst ops.
  destruct (extract_all_block E OD file fuel p OK (o_xref OD (pxref p)) (n, en) w0) with (q := p) (w := w) (a := u) (q' := q) as (x & y & ->); try exact Z.
  - eapply Permutation_in; [apply (proj2 (proj2 OK)) |]. apply (mget_In Z.eqb Zeqb_ok). exact X.
  - eapply (extract_one_block E OD file fuel p Of n o); [exact T | exact F |]. intros st. unfold object_extract. rewrite V.
    eapply held_block; [exact OK | exact H | exact Wr].
  - apply (kept_refl' _ _ W).
  - exists (ops1 ++ map OpEv x), (map OpEv y ++ close_output opened). rewrite !map_app, <- !app_assoc. reflexivity.
Qed.

(** ** The font in the graphics state *)
Definition goes_on (b : bool) (cs : list (bytes * list obj)) : Prop := forall a k ops r, cs = a ++ (k, ops) :: r -> shows k \/ k = lit "TJ" ->
  (exists a1 o a2, a = a1 ++ (lit "Tf", o) :: a2 /\ Forall (fun c => fst c <> lit "BT") a2) \/ (b = true /\ Forall (fun c => fst c <> lit "BT") a).
Lemma goes_font : forall b o cs, goes_on b ((lit "Tf", o) :: cs) -> goes_on true cs.
Proof.
  intros b o cs H a k ops r -> SH. destruct (H ((lit "Tf", o) :: a) k ops r eq_refl SH) as [(a1 & o' & a2 & Q & F) | [_ F]].
  - destruct a1 as [| c a1]; injection Q as Q1 Q2; [right; split; [reflexivity | rewrite Q2; exact F] | left]. exists a1, o', a2. split; assumption.
  - right. split; [reflexivity |]. inversion F. assumption.
Qed.
Lemma goes_begin : forall b o cs, goes_on b ((lit "BT", o) :: cs) -> goes_on false cs.
Proof.
  intros b o cs H a k ops r -> SH. left. destruct (H ((lit "BT", o) :: a) k ops r eq_refl SH) as [(a1 & o' & a2 & Q & F) | [_ F]].
  - destruct a1 as [| c a1]; injection Q as Q1 Q2; [discriminate |]. exists a1, o', a2. split; assumption.
  - exfalso. inversion F as [| ? ? N]. apply N. reflexivity.
Qed.
Lemma goes_other : forall b k o cs, goes_on b ((k, o) :: cs) -> k <> lit "Tf" -> goes_on b cs.
Proof.
  intros b k0 o cs H N a k ops r -> SH. destruct (H ((k0, o) :: a) k ops r eq_refl SH) as [(a1 & o' & a2 & Q & F) | [-> F]].
  - destruct a1 as [| c a1]; injection Q as Q1 Q2; [congruence |]. left. exists a1, o', a2. split; assumption.
  - right. split; [reflexivity |]. inversion F. assumption.
Qed.
Lemma graphics_text : forall fs tj i f st cs ls, graphics fs tj i f st cs ls -> forall b g, goes_on b cs -> (b = true -> i = true -> g = f) ->
  text fs tj (if i then Some g else None) cs ls.
Proof.
  intros fs tj i f st cs ls G. induction G as [i f st | f st ops cs ls G IH | f st ops cs ls G IH | i f st ops cs ls G IH | f st ops cs ls G IH | f g0 st ops cs ls G IH
    | f st k ops t cs ls LN G IH | f st k ops cs ls SI G IH | f st k ops cs ls N1 N2 N3 N4 G IH]; intros b g GO EQ.
  - apply tx_end.
  - apply tx_begin. apply (IH false plain_font); [eapply goes_begin; exact GO | discriminate].
  - apply tx_finish. apply (IH b g); [eapply goes_other; [exact GO | discriminate] | discriminate].
  - destruct i; [apply tx_font; apply (IH true); [eapply goes_font; exact GO | reflexivity] |].
    apply tx_outside; [discriminate |]. apply (IH true f); [eapply goes_font; exact GO | discriminate].
  - apply tx_outside; [discriminate |]. apply (IH b g); [eapply goes_other; [exact GO | discriminate] | discriminate].
  - apply tx_outside; [discriminate |]. apply (IH b g); [eapply goes_other; [exact GO | discriminate] | discriminate].
  - assert (SH : shows k \/ k = lit "TJ") by (destruct LN; auto).
    assert (b = true) by (destruct (GO [] k ops cs eq_refl SH) as [(a1 & o & a2 & Q & _) | [Q _]]; [destruct a1; discriminate | exact Q]). subst b.
    specialize (EQ eq_refl eq_refl). subst g. apply tx_line; [exact LN |]. apply (IH true f); [| reflexivity]. eapply goes_other; [exact GO |].
    destruct SH as [[-> | [-> | ->]] | ->]; discriminate.
  - apply tx_silent; [exact SI |]. apply (IH b g); [eapply goes_other; [exact GO | apply SI] | exact EQ].
  - apply tx_outside; [exact N1 |]. apply (IH b g); [eapply goes_other; [exact GO | exact N2] | discriminate].
Qed.
Lemma selected_text : forall fs tj cs ls, selecting cs -> graphics fs tj false plain_font [] cs ls -> text fs tj None cs ls.
Proof.
  intros fs tj cs ls H G. apply (graphics_text fs tj false plain_font [] cs ls G false plain_font); [| discriminate].
  intros a k ops r Q SH. left. eapply H; eassumption.
Qed.

(** ** Streams read as one *)
Lemma items_then : forall a la, items a la -> forall b lb, items b lb -> items (a ++ x0a :: b) (la ++ lb).
Proof.
  fix IH 3. intros a la H b lb B. destruct H as [g G | g t o r l G OT H E1].
  - assert (G' : gap (g ++ [x0a])) by (apply gap_app; [exact G | apply gap_ws; [cbn; tauto | apply gap_nil]]).
    cbn [app]. destruct B as [g2 G2 | g2 t2 o2 r2 l2 G2 OT2 H2 E2].
    + apply it_nil. change (g ++ x0a :: g2) with (g ++ [x0a] ++ g2). rewrite app_assoc. apply gap_app; assumption.
    + replace (g ++ x0a :: g2 ++ t2 ++ r2) with (((g ++ [x0a]) ++ g2) ++ t2 ++ r2) by (rewrite <- !app_assoc; reflexivity).
      apply it_cons; try assumption. apply gap_app; assumption.
  - cbn [app]. rewrite <- !app_assoc. apply it_cons; [exact G | exact OT | apply IH; assumption |]. destruct E1 as [E1 | [-> | (x & r' & -> & D)]].
    + left. exact E1.
    + right. right. exists x0a, b. split; [reflexivity |]. left. cbn. tauto.
    + right. right. exists x, (r' ++ x0a :: b). split; [reflexivity | exact D].
Qed.
Lemma commands_det : forall l cs, commands l cs -> forall cs', commands l cs' -> cs' = cs.
Proof.
  assert (SPLIT : forall ops k r ops' k' r', Forall operand ops -> Forall operand ops' -> ops ++ OKw k :: r = ops' ++ OKw k' :: r' -> ops = ops' /\ k = k' /\ r = r').
  { induction ops as [| x ops IH]; intros k r ops' k' r' F F' Q; destruct ops' as [| y ops']; cbn [app] in Q; injection Q as Q1 Q2.
    - subst. auto.
    - exfalso. inversion F' as [| ? ? N]. eapply N. symmetry. exact Q1.
    - exfalso. inversion F as [| ? ? N]. eapply N. exact Q1.
    - inversion F; inversion F'; subst. destruct (IH _ _ _ _ _ H2 H6 Q2) as (-> & -> & ->). auto. }
  assert (END : forall ops k r l, Forall operand l -> l = ops ++ OKw k :: r -> False).
  { intros ops k r l F ->. apply Forall_app in F. destruct F as [_ F]. inversion F as [| ? ? N]. eapply N. reflexivity. }
  intros l cs C. induction C as [ops F | ops k r cs F C IH]; intros cs' C'.
  - inversion C' as [ops' F' | ops' k' r' cs2 F' C2]; subst; [reflexivity |]. exfalso. eapply END; [exact F | reflexivity].
  - inversion C' as [ops' F' Q | ops' k' r' cs2 F' C2 Q]; subst; [exfalso; eapply END; [exact F' | reflexivity] |].
    destruct (SPLIT _ _ _ _ _ _ F' F Q) as (-> & -> & ->). f_equal. apply IH. exact C2.
Qed.
Lemma commands_app : forall a ca, commands a ca -> (a = [] \/ exists x k, a = x ++ [OKw k]) -> forall b cb, commands b cb -> commands (a ++ b) (ca ++ cb).
Proof.
  intros a ca C. induction C as [ops F | ops k r cs F C IH]; intros L b cb B.
  - destruct L as [-> | (x & k & ->)]; [exact B |]. exfalso. apply Forall_app in F. destruct F as [_ F]. inversion F as [| ? ? N]. eapply N. reflexivity.
  - rewrite <- app_assoc. cbn [app]. apply co_cons; [exact F |]. apply IH; [| exact B].
    destruct L as [Q | (x & k' & Q)]; [destruct ops; discriminate |]. destruct r as [| o r]; [left; reflexivity | right].
    destruct (exists_last (l := o :: r)) as (r' & z & Q'); [discriminate |]. rewrite Q' in *. exists r'.
    change (ops ++ OKw k :: r' ++ [z]) with (ops ++ (OKw k :: r') ++ [z]) in Q. rewrite app_assoc in Q. apply app_inj_tail in Q. destruct Q as [_ ->]. exists k'. reflexivity.
Qed.
Lemma text_split : forall fs tj c1, closed c1 -> forall c2 ls, text fs tj None (c1 ++ c2) ls -> exists l1 l2, ls = l1 ++ l2 /\ text fs tj None c1 l1 /\ text fs tj None c2 l2.
Proof.
  intros fs tj c1 C. induction C as [| k ops cs N C IH | o body o' cs F C IH]; intros c2 ls T.
  - exists [], ls. split; [reflexivity |]. split; [apply tx_end | exact T].
  - cbn [app] in T. inversion T; subst; [exfalso; apply N; reflexivity |]. destruct (IH _ _ H4) as (l1 & l2 & -> & T1 & T2). exists l1, l2.
    split; [reflexivity |]. split; [apply tx_outside; assumption | exact T2].
  - cbn [app] in T. inversion T as [| ? ? ? T' | ? ? ? ? N | | | |]; subst; [| exfalso; apply N; reflexivity].
    assert (G : forall body f ls, Forall (fun c : bytes * list obj => fst c <> lit "ET") body -> text fs tj (Some f) ((body ++ (lit "ET", o') :: cs) ++ c2) ls ->
      exists l1 l2, ls = l1 ++ l2 /\ text fs tj (Some f) (body ++ (lit "ET", o') :: cs) l1 /\ text fs tj None c2 l2).
    { clear T T' F body ls. induction body as [| [k ops] body IHb]; intros f ls F T.
      - cbn [app] in T. inversion T as [| | | ? ? ? ? T' | | ? ? ? ? ? ? LN | ? ? ? ? ? SI]; subst.
        + destruct (IH _ _ T') as (l1 & l2 & -> & T1 & T2). exists l1, l2. split; [reflexivity |]. split; [apply tx_finish; exact T1 | exact T2].
        + exfalso. inversion LN as [? ? ? SH |]; subst. destruct SH as [Q | [Q | Q]]; discriminate.
        + exfalso. apply SI. reflexivity.
      - inversion F as [| ? ? N F']; subst. cbn [fst] in N. cbn [app] in T. inversion T as [| | | ? ? ? ? T' | ? ? ? ? T' | ? ? ? ? ? ? LN T' | ? ? ? ? ? SI T']; subst.
        + exfalso. apply N. reflexivity.
        + destruct (IHb _ _ F' T') as (l1 & l2 & -> & T1 & T2). exists l1, l2. split; [reflexivity |]. split; [apply tx_font; exact T1 | exact T2].
        + destruct (IHb _ _ F' T') as (l1 & l2 & -> & T1 & T2). exists (t :: l1), l2. split; [reflexivity |]. split; [apply tx_line; assumption | exact T2].
        + destruct (IHb _ _ F' T') as (l1 & l2 & -> & T1 & T2). exists l1, l2. split; [reflexivity |]. split; [apply tx_silent; assumption | exact T2]. }
    destruct (G _ _ _ F T') as (l1 & l2 & -> & T1 & T2). exists l1, l2. split; [reflexivity |]. split; [apply tx_begin; exact T1 | exact T2].
Qed.
Lemma joint_items : forall ss, Forall whole ss -> exists l cs, items (joint ss) l /\ commands l cs /\ closed cs /\
  forall fs tj ls, text fs tj None cs ls -> exists lss, ls = List.concat lss /\ Forall2 (fun s ls => exists l cs', items s l /\ commands l cs' /\ incl cs' cs /\ text fs tj None cs' ls) ss lss.
Proof.
  assert (CA : forall a, closed a -> forall b, closed b -> closed (a ++ b)).
  { intros a A. induction A; intros b B; cbn [app]; [exact B | apply cl_outside; auto |]. rewrite <- app_assoc. cbn [app]. apply cl_object; auto. }
  induction ss as [| s ss IH]; intros F.
  - exists [], []. split; [apply it_nil, gap_nil |]. split; [apply co_end; constructor |]. split; [constructor |]. intros fs tj ls T. inversion T; subst. exists []. split; [reflexivity | constructor].
  - inversion F as [| ? ? (l1 & c1 & I1 & C1 & W1 & K1) F']; subst. destruct (IH F') as (l2 & c2 & I2 & C2 & K2 & H). exists (l1 ++ l2), (c1 ++ c2).
    split; [unfold joint; cbn [map List.concat]; rewrite <- app_assoc; cbn [app]; apply items_then; [exact I1 | exact I2] |].
    split; [apply commands_app; assumption |]. split; [apply CA; assumption |]. intros fs tj ls T.
    destruct (text_split fs tj c1 K1 c2 ls T) as (la & lb & -> & T1 & T2). destruct (H fs tj lb T2) as (lss & -> & G). exists (la :: lss). split; [reflexivity |].
    constructor.
    + exists l1, c1. split; [exact I1 |]. split; [exact C1 |]. split; [apply incl_appl, incl_refl | exact T1].
    + clear -G. induction G as [| s ls ss lss (l & cs & A & B & C & D) G IH]; constructor; [| exact IH]. exists l, cs. repeat split; try assumption. apply incl_appr. exact C.
Qed.
Lemma joint_lines : forall fs ss l cs ls, Forall whole ss -> tokens (joint ss) l -> commands l cs -> Forall alternating cs -> text fs all_strings None cs ls ->
  exists lss, ls = List.concat lss /\ Forall2 (stream_lines fs) ss lss.
Proof.
  intros fs ss l cs ls F T C A X. destruct (joint_items ss F) as (l' & cs' & I' & C' & K & H). assert (l' = l) by (eapply items_tokens_only; eassumption). subst l'.
  assert (cs' = cs) by (eapply commands_det; eassumption). subst cs'. destruct (H _ _ _ X) as (lss & -> & G). exists lss. split; [reflexivity |].
  clear -G A. induction G as [| s ls ss lss (l & c & I1 & C1 & IN & T1) G IH]; constructor; [| exact IH]. exists l, c. split; [apply items_tokens; exact I1 |]. split; [exact C1 |].
  split; [| exact T1]. rewrite Forall_forall in *. intros x J. apply A. apply IN. exact J.
Qed.

(** ** C73 *)
Lemma parse_pages : forall E OD fuel S pw ops file p, order_ok OD -> s_input S = Some file ->
  parse E OD fuel S pw = (ops, Ok PNone) -> load fuel E (o_objects OD) file pw (new_parser file) = Ok (None, p) -> offsets_ok (pxref p) ->
  forall n o d h pages lss, in_use p n -> fetched E file p n o -> ival o = ODict d -> holds (ODict d) h ->
    pages_of E file p h pages -> Forall2 (page_lines E file p) pages lss -> written_out (lines (List.concat lss)) ops.
Proof.
  intros E OD fuel S pw ops file p OK I P L Of n o d h pages lss U F V H PG PL.
  assert (W : reads file p) by (apply (tidy_load file fuel E (o_objects OD) pw (new_parser file) None p (new_sound file) L)).
  refine (parse_block E OD fuel S pw ops file p OK I P L Of n o d h _ U F V H _). intros st. apply text_here. apply just_block.
  eapply page_text_of_just; eassumption.
Qed.
Lemma parse_page : forall E OD fuel S pw ops file p, order_ok OD -> s_input S = Some file ->
  parse E OD fuel S pw = (ops, Ok PNone) -> load fuel E (o_objects OD) file pw (new_parser file) = Ok (None, p) -> offsets_ok (pxref p) ->
  forall h pages page ls, of_document E file p h -> pages_of E file p h pages -> In page pages -> page_lines E file p page ls -> written_out (lines ls) ops.
Proof.
  intros E OD fuel S pw ops file p OK I P L Of h pages page ls (n & o & d & U & F & V & H) PG IN PL.
  assert (W : reads file p) by (apply (tidy_load file fuel E (o_objects OD) pw (new_parser file) None p (new_sound file) L)).
  refine (parse_block E OD fuel S pw ops file p OK I P L Of n o d h _ U F V H _). intros st. apply text_here. unfold page_text_of.
  eapply block_known; [apply page_tree_got; eassumption |]. eapply pages_block; [exact IN |]. intros st'. apply just_block. eapply page_extract_just; eassumption.
Qed.
Lemma run_pages : forall E OD fuel S pw ops file p, order_ok OD -> s_input S = Some file ->
  parse E OD fuel S pw = (ops, Ok PNone) -> load fuel E (o_objects OD) file pw (new_parser file) = Ok (None, p) -> offsets_ok (pxref p) ->
  forall h pages lss, of_document E file p h -> pages_of E file p h pages -> Forall2 (page_lines E file p) pages lss -> written_out (lines (List.concat lss)) ops.
Proof.
  intros E OD fuel S pw ops file p OK I P L Of h pages lss (n & o & d & U & F & V & H) PG PL. eapply parse_pages; eassumption.
Qed.

(** ** C74, C75 *)
Lemma run_graphics : forall E OD fuel S pw ops file p, order_ok OD -> s_input S = Some file ->
  parse E OD fuel S pw = (ops, Ok PNone) -> load fuel E (o_objects OD) file pw (new_parser file) = Ok (None, p) -> offsets_ok (pxref p) ->
  forall h pages page fs s l cs ls, of_document E file p h -> pages_of E file p h pages -> In page pages -> fonts_of E file p page fs -> contents_of E file p page [s] ->
    tokens s l -> commands l cs -> Forall alternating cs -> selecting cs -> graphics fs all_strings false plain_font [] cs ls -> written_out (lines ls) ops.
Proof.
  intros E OD fuel S pw ops file p OK I P L Of h pages page fs s l cs ls D PG IN FO CO TK CM AL SE GR. eapply parse_page; try eassumption.
  exists fs, [s], [ls]. split; [exact FO |]. split; [exact CO |]. split; [| symmetry; apply app_nil_r]. constructor; [| constructor].
  exists l, cs. repeat split; try assumption. apply selected_text; assumption.
Qed.
Lemma run_joint : forall E OD fuel S pw ops file p, order_ok OD -> s_input S = Some file ->
  parse E OD fuel S pw = (ops, Ok PNone) -> load fuel E (o_objects OD) file pw (new_parser file) = Ok (None, p) -> offsets_ok (pxref p) ->
  forall h pages page fs ss l cs ls, of_document E file p h -> pages_of E file p h pages -> In page pages -> fonts_of E file p page fs -> contents_of E file p page ss ->
    tokens (joint ss) l -> commands l cs -> Forall alternating cs -> Forall whole ss -> text fs all_strings None cs ls -> written_out (lines ls) ops.
Proof.
  intros E OD fuel S pw ops file p OK I P L Of h pages page fs ss l cs ls D PG IN FO CO TK CM AL WH TX. eapply parse_page; try eassumption.
  destruct (joint_lines fs ss l cs ls WH TK CM AL TX) as (lss & -> & SL). exists fs, ss, lss. repeat split; assumption.
Qed.
