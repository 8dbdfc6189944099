(** PageP.v -- the text of content streams (C48, C49). *)
From Verif Require Import Base BaseP Msg Reader ReaderP Num Lexer Obj ReadObj Plain ReadObjP PObjP Bits Env Getters GetObj Font Output Page
  SpecLex SpecLexP SpecObj SpecObjP SpecRead ReadP SpecText SpecPage TextP XrefP FetchP SpecFetch.
From Coq Require Import Strings.String.

(** ** Any stream is a sequence of objects *)
Lemma next_object_exists : forall t, exists o e r, next_object t o e r /\ (e = EReadError -> o = OKw (lit "null") /\ r = []) /\
  (e <> EReadError -> (List.length r < List.length t)%nat).
Proof.
  intros t. destruct (read_object_returns t no_decryptor (open_rd t) (open_wf t) no_total) as (o & e & s' & RO & W' & _ & B & R1 & R2).
  pose proof (ReadObject_plain t no_decryptor (open_rd t) (open_wf t)) as S. change (rest (open_rd t)) with t in S.
  destruct (P_object no_decryptor t) as [[[o' e'] [r ms]] | |] eqn:P; unfold sim in S.
  - destruct S as (s1 & RO1 & _ & RR & _). rewrite RO in RO1. injection RO1 as <- <- <-.
    exists o, e, r. split.
    + intros file s W R. pose proof (ReadObject_plain file no_decryptor s W) as S2. rewrite R, P in S2. destruct S2 as (s2 & H & W2 & R3 & _).
      exists s2. auto.
    + split.
      * intros Q. destruct (R1 Q) as [A C]. split; [exact A | congruence].
      * intros Q. destruct (R2 Q) as [P1 P2]. pose proof (wf_shorter _ _ _ (open_wf t) W' P1 P2) as L. rewrite RR in L. exact L.
  - rewrite RO in S. discriminate.
  - exfalso. revert P. apply P_no_fuel. intros v. discriminate.
Qed.
Lemma tokens_exist : forall t, exists l, tokens t l.
Proof.
  intros t. remember (List.length t) as n eqn:N. revert t N. induction n as [n IH] using lt_wf_ind. intros t ->.
  destruct (next_object_exists t) as (o & e & r & NO & A & B). destruct e.
  2: { destruct A as [-> ->]; [reflexivity |]. exists []. exact (tk_end _ _ NO). }
  all: destruct (IH (List.length r)) with (t := r) as (l & T); [apply B; discriminate | reflexivity |].
  - exists (o :: l). exact (tk_object _ _ _ _ NO T).
  - exists (OKw (lit "null") :: l). apply (tk_stray _ _ _ _ _ NO); [discriminate | discriminate | exact T].
  - exists (OKw (lit "null") :: l). apply (tk_stray _ _ _ _ _ NO); [discriminate | discriminate | exact T].
  - exists (OKw (lit "null") :: l). apply (tk_stray _ _ _ _ _ NO); [discriminate | discriminate | exact T].
  - exists (OKw (lit "null") :: l). apply (tk_stray _ _ _ _ _ NO); [discriminate | discriminate | exact T].
Qed.
(** only one *)
Lemma somewhere : forall t, exists file s, wf file s /\ rest s = t.
Proof. intros t. exists t, (open_rd t). split; [apply open_wf | reflexivity]. Qed.
Lemma next_object_det : forall t o e r o' e' r', next_object t o e r -> next_object t o' e' r' -> o = o' /\ e = e' /\ r = r'.
Proof.
  intros t o e r o' e' r' H H'. destruct (somewhere t) as (file & s & W & R). destruct (H file s W R) as (s1 & E1 & _ & R1).
  destruct (H' file s W R) as (s2 & E2 & _ & R2). rewrite E1 in E2. injection E2 as <- <- <-. repeat split; congruence.
Qed.
Lemma tokens_det : forall t l, tokens t l -> forall l', tokens t l' -> l = l'.
Proof.
  intros t l H. induction H as [t o N | t o r l N T IH | t o e r l N N1 N2 T IH]; intros l' H'; inversion H' as [t' o' N' | t' o' r' m N' T' | t' o' e' r' m N' M1 M2 T']; subst;
    destruct (next_object_det _ _ _ _ _ _ _ N N') as (Q1 & Q2 & Q3); try congruence; subst.
  - f_equal. apply IH. exact T'.
  - f_equal. apply IH. exact T'.
Qed.
(** well-formed ones are what the grammar says *)
Lemma items_tokens : forall l t, items t l -> tokens t l.
Proof.
  induction l as [| o l IH]; intros t H.
  - apply (tk_end t KEYWORD_NULL). intros file s W R. inversion H as [g G |]; subst. pose proof (ReadObject_plain file no_decryptor s W) as S.
    change (P_object no_decryptor (rest s)) with (P0 (rest s)) in S.
    replace (P0 (rest s)) with (P0 []) in S. 2: { rewrite <- (app_nil_r (rest s)), P0_gap by assumption. reflexivity. }
    rewrite P0_nil in S. cbn in S. destruct S as (s' & H1 & H2 & H3 & _). exists s'. auto.
  - destruct (item_read t o l [] H) as (t' & I & _ & RD); [left; reflexivity |]. apply (tk_object t o t'); [| exact (IH t' I)].
    intros file s W R. destruct (RD file s W) as (s' & Q & W' & R'); [rewrite app_nil_r; exact R |]. rewrite app_nil_r in R'. exists s'. auto.
Qed.

(** ** Commands of a sequence of objects *)
Lemma command_loop_tokens : forall ops t k l, tokens t (ops ++ OKw k :: l) -> Forall operand ops ->
  exists t' e, tokens t' l /\ e <> EReadError /\
  forall file n acc s, wf file s -> rest s = t -> (List.length (rest s) < n)%nat ->
  exists s', read_command_loop n file acc s = Ok (((k, acc ++ ops), e), s') /\ wf file s' /\ rest s' = t'.
Proof.
  induction ops as [| o ops IH]; intros t k l T F; cbn [app] in T.
  - inversion T as [| t1 o1 r1 l1 N1 T1 | t1 o1 e1 r1 l1 N1 D1 D2 T1]; subst.
    + exists r1, ENone. split; [exact T1 |]. split; [discriminate |]. intros file n acc s W R L. destruct n as [| n]; [lia |]. cbn [read_command_loop].
      destruct (N1 file s W R) as (s' & -> & W' & R'). cbn [rbind]. exists s'. rewrite app_nil_r. auto.
    + exists r1, e1. split; [exact T1 |]. split; [exact D2 |]. intros file n acc s W R L. destruct n as [| n]; [lia |]. cbn [read_command_loop].
      destruct (N1 file s W R) as (s' & -> & W' & R'). cbn [rbind]. exists s'. rewrite app_nil_r. split; [| auto]. destruct e1; try reflexivity; congruence.
  - inversion F as [| o' ops' Ho Fo]; subst. inversion T as [| t1 o1 r1 l1 N1 T1 | t1 o1 e1 r1 l1 N1 D1 D2 T1]; subst.
    2: { exfalso. apply (Ho (lit "null")). reflexivity. }
    destruct (IH r1 k l T1 Fo) as (t' & e & T' & De & GO). exists t', e. split; [exact T' |]. split; [exact De |].
    intros file n acc s W R L. destruct n as [| n]; [lia |]. cbn [read_command_loop].
    destruct (N1 file s W R) as (s' & Q1 & W' & R'). rewrite Q1. cbn [rbind].
    destruct (GO file n (acc ++ [o]) s' W' R') as (s2 & Q & W2 & R2).
    { rewrite R'. destruct (next_object_exists t) as (o9 & e9 & r9 & N9 & _ & B9). destruct (next_object_det _ _ _ _ _ _ _ N1 N9) as (_ & <- & <-).
      specialize (B9 ltac:(discriminate)). rewrite R in L. lia. }
    exists s2. rewrite <- app_assoc in Q. split; [| auto]. destruct o; try exact Q. exfalso. apply (Ho v). reflexivity.
Qed.
Lemma read_command_tokens : forall ops t k l, tokens t (ops ++ OKw k :: l) -> Forall operand ops ->
  exists t' e, tokens t' l /\ e <> EReadError /\ forall file s, wf file s -> rest s = t ->
  exists s', ReadCommand file s = Ok (((k, ops), e), s') /\ wf file s' /\ rest s' = t'.
Proof.
  intros ops t k l T F. destruct (command_loop_tokens ops t k l T F) as (t' & e & T' & D & GO). exists t', e. split; [exact T' |]. split; [exact D |].
  intros file s W R. unfold ReadCommand, enough. apply (GO file _ [] s W R). lia.
Qed.
Lemma command_loop_none : forall ops t, tokens t ops -> Forall operand ops ->
  forall file n acc s, wf file s -> rest s = t -> (List.length (rest s) < n)%nat ->
  exists s', read_command_loop n file acc s = Ok (((lit "null", acc ++ ops), EReadError), s') /\ wf file s' /\ rest s' = [].
Proof.
  induction ops as [| o ops IH]; intros t T F file n acc s W R L; (destruct n as [| n]; [lia |]); cbn [read_command_loop].
  - inversion T as [t1 o1 N1 | |]; subst. destruct (N1 file s W eq_refl) as (s' & -> & W' & R'). cbn [rbind]. exists s'. rewrite app_nil_r. auto.
  - inversion F as [| o' ops' Ho Fo]; subst. inversion T as [| t1 o1 r1 l1 N1 T1 | t1 o1 e1 r1 l1 N1 D1 D2 T1]; subst.
    2: { exfalso. apply (Ho (lit "null")). reflexivity. }
    destruct (N1 file s W eq_refl) as (s' & Q1 & W' & R'). rewrite Q1. cbn [rbind].
    destruct (IH r1 T1 Fo file n (acc ++ [o]) s' W' R') as (s2 & Q & W2 & R2).
    { rewrite R'. destruct (next_object_exists (rest s)) as (o9 & e9 & r9 & N9 & _ & B9). destruct (next_object_det _ _ _ _ _ _ _ N1 N9) as (_ & <- & <-).
      specialize (B9 ltac:(discriminate)). lia. }
    exists s2. rewrite <- app_assoc in Q. split; [| auto]. destruct o; try exact Q. exfalso. apply (Ho v). reflexivity.
Qed.
Lemma read_command_none : forall ops t, tokens t ops -> Forall operand ops -> forall file s, wf file s -> rest s = t ->
  exists s', ReadCommand file s = Ok (((lit "null", ops), EReadError), s') /\ wf file s' /\ rest s' = [].
Proof. intros ops t T F file s W R. unfold ReadCommand, enough. apply (command_loop_none ops t T F file _ [] s W R). lia. Qed.
Lemma tokens_nil : tokens [] [].
Proof. apply items_tokens. apply it_nil. apply gap_nil. Qed.

(** ** Operands: references lead nowhere in a content stream *)
Definition bare (file : bytes) (p : pst) : Prop := wf file (prd p) /\ pxref p = [].
Lemma bare_resolve : forall E file k n p, bare file p -> exists p', Resolve (S (S k)) E file n p = Ok (new_iobj n, p') /\ bare file p' /\ rest (prd p') = rest (prd p).
Proof.
  intros E file k n p [W X]. destruct (Resolve (S (S k)) E file n p) as [[o p'] | |] eqn:Q.
  - pose proof (Resolve_stays _ _ _ _ _ _ _ W Q) as (W' & _ & R & X' & _). exists p'. split; [| split; [split; [exact W' | congruence] | exact R]].
    revert Q. unfold Resolve, restoring, bind, pseek, ret. cbn [resolve get_object zmem existsb]. unfold bind, ret. rewrite X. cbn [xget mget]. intros Q. injection Q as <- <-. reflexivity.
  - revert Q. unfold Resolve, restoring, bind, pseek, ret. cbn [resolve get_object zmem existsb]. unfold bind, ret. rewrite X. discriminate.
  - revert Q. unfold Resolve, restoring, bind, pseek, ret. cbn [resolve get_object zmem existsb]. unfold bind, ret. rewrite X. discriminate.
Qed.
Definition seen_as (x : option obj) : obj * bool :=
  match x with Some (ORef _ _) => (KEYWORD_NULL, true) | Some o => (o, true) | None => (KEYWORD_NULL, false) end.
Lemma bare_object : forall E file k l i p, bare file p -> exists p', a_object (Resolve (S (S k)) E file) l i p = Ok (seen_as (zget l i), p') /\
  bare file p' /\ rest (prd p') = rest (prd p).
Proof.
  intros E file k l i p B. unfold a_object. destruct (zget l i) as [o |]; [| exists p; split; [reflexivity | auto]].
  destruct o; try (exists p; split; [reflexivity | auto]). destruct (bare_resolve E file k n p B) as (p' & Q & B' & R). exists p'. unfold bind. rewrite Q. split; [reflexivity | auto].
Qed.
Lemma bare_string : forall E file k l i p, bare file p -> exists ok p', a_string (Resolve (S (S k)) E file) l i p = Ok ((string_of (zget l i), ok), p') /\
  bare file p' /\ rest (prd p') = rest (prd p).
Proof.
  intros E file k l i p B. destruct (bare_object E file k l i p B) as (p' & Q & B' & R). unfold a_string, bind. rewrite Q. unfold ret.
  destruct (zget l i) as [[] |]; cbn; eauto.
Qed.
Lemma bare_name : forall E file k l i p, bare file p -> exists ok p', a_name (Resolve (S (S k)) E file) l i p = Ok ((name_of (zget l i), ok), p') /\
  bare file p' /\ rest (prd p') = rest (prd p).
Proof.
  intros E file k l i p B. destruct (bare_object E file k l i p B) as (p' & Q & B' & R). unfold a_name, bind. rewrite Q. unfold ret.
  destruct (zget l i) as [[] |]; cbn; eauto.
Qed.
Lemma bare_array : forall E file k l i p, bare file p -> exists ok p', a_array (Resolve (S (S k)) E file) l i p = Ok ((array_of (zget l i), ok), p') /\
  bare file p' /\ rest (prd p') = rest (prd p).
Proof.
  intros E file k l i p B. destruct (bare_object E file k l i p B) as (p' & Q & B' & R). unfold a_array, bind. rewrite Q. unfold ret.
  destruct (zget l i) as [[] |]; cbn; eauto.
Qed.
Lemma zget_from_end : forall (l : list obj) i, zget l (zlen l - 1 - Z.of_nat i) = from_end l i.
Proof.
  intros l i. unfold from_end. destruct (Nat.lt_ge_cases i (List.length l)) as [L | L].
  - rewrite zget_nth by (unfold zlen; lia). rewrite (nth_error_nth' (rev l) (ONum num_zero)) by (rewrite rev_length; exact L).
    rewrite rev_nth by exact L. rewrite <- (nth_error_nth' l (ONum num_zero)) by lia. f_equal. unfold zlen. lia.
  - replace (nth_error (rev l) i) with (@None obj) by (symmetry; apply nth_error_None; rewrite rev_length; exact L).
    apply zget_None_iff. left. unfold zlen. lia.
Qed.
Lemma even_skip : forall k (a : list obj), (List.length a <= k)%nat -> even_strings (skipn k a) = [].
Proof. intros k a L. rewrite skipn_all2 by exact L. reflexivity. Qed.
Lemma even_step : forall i (a : list obj), (i < List.length a)%nat -> even_strings (skipn i a) = string_of (nth_error a i) ++ even_strings (skipn (2 + i) a).
Proof.
  induction i as [| i IH]; intros a L; destruct a as [| o a]; cbn [List.length] in L; try lia.
  - cbn [skipn nth_error]. destruct a as [| o2 a]; [cbn; rewrite app_nil_r; reflexivity | reflexivity].
  - change (skipn (S i) (o :: a)) with (skipn i a). rewrite IH by lia. reflexivity.
Qed.
Lemma bare_tj : forall E file k j a i acc p, bare file p -> (List.length a < i + j)%nat ->
  exists p', tj_strings j (Resolve (S (S k)) E file) (Z.of_nat i) a acc p = Ok (acc ++ even_strings (skipn i a), p') /\ bare file p' /\ rest (prd p') = rest (prd p).
Proof.
  intros E file k. induction j as [| j IH]; intros a i acc p B L; cbn [tj_strings].
  - exists p. rewrite even_skip, app_nil_r by lia. split; [reflexivity | auto].
  - destruct (Z.of_nat i <? zlen a) eqn:Q.
    + apply Z.ltb_lt in Q. unfold zlen in Q. destruct (bare_string E file k a (Z.of_nat i) p B) as (ok & p1 & Q1 & B1 & R1). unfold bind at 1. rewrite Q1.
      replace (Z.of_nat i + 2) with (Z.of_nat (2 + i)) by lia.
      destruct (IH a (2 + i)%nat (acc ++ string_of (zget a (Z.of_nat i))) p1 B1) as (p2 & Q2 & B2 & R2); [lia |].
      exists p2. rewrite Q2. split; [| split; [exact B2 | congruence]]. rewrite <- app_assoc. rewrite (even_step i a) by lia. rewrite zget_nth, Nat2Z.id by lia. reflexivity.
    + apply Z.ltb_ge in Q. unfold zlen in Q. exists p. rewrite even_skip, app_nil_r by lia. split; [reflexivity | auto].
Qed.

(** ** C48 *)
Lemma font_shown : forall f s t, 1 <= f_width f -> decoded (fmap f) (f_width f) s t -> font_decode f s = Ok t.
Proof. intros f s t W D. destruct (font_decoded f s W) as (out & Q & _ & U). rewrite Q. f_equal. symmetry. apply U. exact D. Qed.
Lemma shown : forall f s t p, 1 <= f_width f -> decoded (fmap f) (f_width f) s t -> show f s p = (lines [t], Ok (tt, p)).
Proof. intros f s t p W D. unfold show, xbind, xlift, lift. rewrite (font_shown f s t W D). reflexivity. Qed.

Definition after_text E contents fm n m (cur : option font) : X unit :=
  match cur with
  | None => contents_loop E contents fm m
  | Some f => xbind (text_loop E contents fm n f) (fun _ => contents_loop E contents fm m)
  end.
Lemma contents_stop : forall E contents fm m p, bare contents p -> rest (prd p) = [] -> exists p', contents_loop E contents fm (S m) p = ([], Ok (tt, p')).
Proof.
  intros E contents fm m p [W X] R. destruct (read_command_none [] [] tokens_nil (Forall_nil _) contents (prd p) W R) as (s' & Q & W' & R').
  cbn [contents_loop]. unfold xbind, xlift, onrdr. rewrite Q. eexists. reflexivity.
Qed.
Lemma with_rd_bare : forall file p s, wf file s -> bare file p -> bare file (with_rd s p).
Proof. intros file p s W [_ X]. split; assumption. Qed.
Lemma lines_cons : forall t ls, lines (t :: ls) = lines [t] ++ lines ls.
Proof. reflexivity. Qed.
Lemma xbind_ok : forall A B (m : X A) (k : A -> X B) p w a p', m p = (w, Ok (a, p')) -> xbind m k p = (w ++ fst (k a p'), snd (k a p')).
Proof. intros A B m k p w a p' H. unfold xbind. rewrite H. destruct (k a p'). reflexivity. Qed.
Lemma xbind_assoc : forall A B C (m : X A) (k : A -> X B) (h : B -> X C) p, xbind (xbind m k) h p = xbind m (fun a => xbind (k a) h) p.
Proof.
  intros A B C m k h p. unfold xbind. destruct (m p) as [w [[a p1] | |]]; try reflexivity. destruct (k a p1) as [w1 [[b p2] | |]]; try reflexivity.
  destruct (h b p2) as [w2 r]. rewrite app_assoc. reflexivity.
Qed.
Lemma xbind_ret : forall A B (a : A) (k : A -> X B) p, xbind (xret a) k p = k a p.
Proof. intros. unfold xbind, xret. destruct (k a p) as [w r]. reflexivity. Qed.
Lemma xbind_silent : forall A B (m : X A) (k : A -> X B) p a p', m p = ([], Ok (a, p')) -> xbind m k p = k a p'.
Proof. intros A B m k p a p' H. unfold xbind. rewrite H. destruct (k a p'). reflexivity. Qed.
Lemma bseq_is : forall a, bseq a a = true.
Proof. intros a. apply bseq_eq. reflexivity. Qed.
Lemma bseq_not : forall a b, a <> b -> bseq a b = false.
Proof. intros a b H. destruct (bseq a b) eqn:Q; [apply bseq_eq in Q; congruence | reflexivity]. Qed.

Lemma text_runs : forall E contents fm, sound_fonts fm -> forall st cs ls, text (named fm) even_strings st cs ls ->
  forall l t, tokens t l -> commands l cs -> forall n m p cur, (List.length cs + 3 <= n)%nat -> (List.length cs + 3 <= m)%nat ->
  bare contents p -> rest (prd p) = t -> st = option_map view cur -> (forall f, cur = Some f -> 1 <= f_width f) ->
  exists p', after_text E contents fm n m cur p = (lines ls, Ok (tt, p')).
Proof.
  intros E contents fm SF st cs ls H.
  induction H as [f | ops cs ls H IH | k ops cs ls K H IH | f ops cs ls H IH | f ops cs ls H IH | f k ops t0 cs ls LN H IH | f k ops cs ls SI H IH];
    intros l t T CO n m p cur Ln Lm B R ST SC; cbn [List.length] in Ln, Lm.
  - inversion CO as [ops F |]; subst. destruct n as [| n]; [lia |]. destruct m as [| m]; [lia |].
    destruct (read_command_none l (rest (prd p)) T F contents (prd p) (proj1 B) eq_refl) as (s' & Q & W' & R').
    assert (RD : xlift (onrdr (ReadCommand contents)) p = ([], Ok ((lit "null", l, EReadError), with_rd s' p))). { unfold xlift, onrdr. rewrite Q. reflexivity. }
    destruct cur as [c |]; cbn [after_text].
    + destruct (contents_stop E contents fm m (with_rd s' p) (with_rd_bare _ _ _ W' B) R') as (p' & Q2). exists p'. etransitivity; [| exact Q2]. cbn [text_loop].
      rewrite xbind_assoc, (xbind_silent _ _ _ _ _ _ _ RD). apply xbind_ret.
    + exists (with_rd s' p). cbn [contents_loop]. rewrite (xbind_silent _ _ _ _ _ _ _ RD). reflexivity.
  - inversion CO as [| ops' k' r cs' F CO']; subst. destruct cur; [discriminate |]. destruct m as [| m]; [lia |].
    destruct (read_command_tokens _ _ _ _ T F) as (t' & e & T' & De & GO). destruct (GO contents (prd p) (proj1 B) eq_refl) as (s' & Q & W' & R').
    assert (RD : xlift (onrdr (ReadCommand contents)) p = ([], Ok ((lit "BT", ops, e), with_rd s' p))). { unfold xlift, onrdr. rewrite Q. reflexivity. }
    cbn [after_text contents_loop]. rewrite (xbind_silent _ _ _ _ _ _ _ RD). rewrite bseq_is.
    destruct (IH r t' T' CO' m m (with_rd s' p) (Some font_default)) as (p' & Q2); [lia | lia | exact (with_rd_bare _ _ _ W' B) | exact R' | reflexivity | intros f Qf; injection Qf as <-; cbn; lia |].
    exists p'. destruct e; try congruence; exact Q2.
  - inversion CO as [| ops' k' r cs' F CO']; subst. destruct cur; [discriminate |]. destruct m as [| m]; [lia |].
    destruct (read_command_tokens _ _ _ _ T F) as (t' & e & T' & De & GO). destruct (GO contents (prd p) (proj1 B) eq_refl) as (s' & Q & W' & R').
    assert (RD : xlift (onrdr (ReadCommand contents)) p = ([], Ok ((k, ops, e), with_rd s' p))). { unfold xlift, onrdr. rewrite Q. reflexivity. }
    cbn [after_text contents_loop]. rewrite (xbind_silent _ _ _ _ _ _ _ RD). rewrite (bseq_not _ _ K).
    destruct (IH r t' T' CO' m m (with_rd s' p) None) as (p' & Q2); [lia | lia | exact (with_rd_bare _ _ _ W' B) | exact R' | reflexivity | discriminate |].
    exists p'. destruct e; try congruence; exact Q2.
  - inversion CO as [| ops' k' r cs' F CO']; subst. destruct cur as [c |]; [| discriminate]. destruct n as [| n]; [lia |].
    destruct (read_command_tokens _ _ _ _ T F) as (t' & e & T' & De & GO). destruct (GO contents (prd p) (proj1 B) eq_refl) as (s' & Q & W' & R').
    assert (RD : xlift (onrdr (ReadCommand contents)) p = ([], Ok ((lit "ET", ops, e), with_rd s' p))). { unfold xlift, onrdr. rewrite Q. reflexivity. }
    destruct (IH r t' T' CO' n m (with_rd s' p) None) as (p' & Q2); [lia | lia | exact (with_rd_bare _ _ _ W' B) | exact R' | reflexivity | discriminate |].
    exists p'. rewrite <- Q2. cbn [after_text text_loop]. rewrite xbind_assoc, (xbind_silent _ _ _ _ _ _ _ RD), bseq_is. destruct e; try congruence; apply xbind_ret.
  - inversion CO as [| ops' k' r cs' F CO']; subst. destruct cur as [c |]; [| discriminate]. destruct n as [| [| [| n]]]; try lia.
    destruct (read_command_tokens _ _ _ _ T F) as (t' & e & T' & De & GO). destruct (GO contents (prd p) (proj1 B) eq_refl) as (s' & Q & W' & R').
    assert (RD : xlift (onrdr (ReadCommand contents)) p = ([], Ok ((lit "Tf", ops, e), with_rd s' p))). { unfold xlift, onrdr. rewrite Q. reflexivity. }
    destruct (bare_name E contents n ops (zlen ops - 2) (with_rd s' p) (with_rd_bare _ _ _ W' B)) as (ok & p1 & Q1 & B1 & R1).
    replace (zlen ops - 2) with (zlen ops - 1 - Z.of_nat 1) in Q1 by lia. rewrite zget_from_end in Q1.
    destruct (IH r t' T' CO' (S (S n)) m p1 (Some (match mget bseq (name_of (from_end ops 1)) fm with Some f => f | None => font_default end))) as (p' & Q2);
      [lia | lia | exact B1 | rewrite R1; exact R' | | |].
    { cbn [option_map]. f_equal. unfold font_named, named. destruct (mget bseq (name_of (from_end ops 1)) fm); reflexivity. }
    { intros g Qg. injection Qg as <-. destruct (mget bseq (name_of (from_end ops 1)) fm) eqn:M; [exact (SF _ _ M) | cbn; lia]. }
    exists p'. rewrite <- Q2. cbn [after_text]. remember (S (S n)) as n2 eqn:N2. cbn [text_loop]. rewrite xbind_assoc, (xbind_silent _ _ _ _ _ _ _ RD).
    assert (Q3 : xlift (a_name (Resolve n2 E contents) ops (zlen ops - 2)) (with_rd s' p) = ([], Ok (name_of (from_end ops 1), ok, p1))).
    { unfold xlift. f_equal. subst n2. replace (zlen ops - 2) with (zlen ops - 1 - Z.of_nat 1) by lia. exact Q1. }
    change (bseq (lit "Tf") (lit "ET")) with false. rewrite bseq_is.
    destruct e; try congruence; cbv iota zeta; rewrite xbind_assoc, (xbind_silent _ _ _ _ _ _ _ Q3); reflexivity.
  - inversion CO as [| ops' k' r cs' F CO']; subst. destruct cur as [c |]; [| discriminate]. destruct n as [| [| [| n]]]; try lia.
    assert (f = view c) by (cbn in ST; congruence). subst f. clear ST.
    destruct (read_command_tokens _ _ _ _ T F) as (t' & e & T' & De & GO). destruct (GO contents (prd p) (proj1 B) eq_refl) as (s' & Q & W' & R').
    assert (RD : xlift (onrdr (ReadCommand contents)) p = ([], Ok ((k, ops, e), with_rd s' p))). { unfold xlift, onrdr. rewrite Q. reflexivity. }
    pose proof (SC c eq_refl) as WC. remember (S (S n)) as n2 eqn:N2.
    assert (STEP : exists p1, bare contents p1 /\ rest (prd p1) = t' /\ text_loop E contents fm (S n2) c p = xbind (xout (lines [t0])) (fun _ => text_loop E contents fm n2 c) p1).
    { inversion LN as [k0 ops0 t1 SH D Q1 Q2 Q3 | ops0 t1 D Q1 Q2 Q3]; subst.
      - destruct (bare_string E contents n ops (zlen ops - 1) (with_rd s' p) (with_rd_bare _ _ _ W' B)) as (ok & p1 & Q1 & B1 & R1).
        replace (zlen ops - 1) with (zlen ops - 1 - Z.of_nat 0) in Q1 by lia. rewrite zget_from_end in Q1. exists p1. split; [exact B1 |]. split; [rewrite R1; reflexivity |].
        remember (S (S n)) as n2 eqn:N2. cbn [text_loop]. rewrite (xbind_silent _ _ _ _ _ _ _ RD).
        assert (Q3 : xlift (a_string (Resolve n2 E contents) ops (zlen ops - 1)) (with_rd s' p) = ([], Ok (string_of (from_end ops 0), ok, p1))).
        { unfold xlift. f_equal. subst n2. replace (zlen ops - 1) with (zlen ops - 1 - Z.of_nat 0) by lia. exact Q1. }
        assert (K1 : bseq k (lit "ET") = false /\ bseq k (lit "Tf") = false /\ (bseq k (lit "Tj") || bseq k (lit "'") || bseq k [x22])%bool = true).
        { destruct SH as [-> | [-> | ->]]; repeat split. }
        destruct K1 as (K1 & K2 & K3). rewrite K1, K2, K3.
        destruct e; try congruence; cbv iota zeta; rewrite (xbind_silent _ _ _ _ _ _ _ Q3); cbv beta iota; rewrite (xbind_ok _ _ _ _ _ _ _ _ (shown c _ t0 p1 WC D));
          unfold xbind, xout; destruct (text_loop E contents fm n2 c p1) as [w rr]; reflexivity.
      - destruct (bare_array E contents n ops (zlen ops - 1) (with_rd s' p) (with_rd_bare _ _ _ W' B)) as (ok & p1 & Q1 & B1 & R1).
        replace (zlen ops - 1) with (zlen ops - 1 - Z.of_nat 0) in Q1 by lia. rewrite zget_from_end in Q1.
        set (a := array_of (from_end ops 0)) in *.
        destruct (bare_tj E contents n (S (List.length a)) a 0%nat [] p1 B1) as (p2 & Q2 & B2 & R2); [lia |]. cbn [skipn app] in Q2. change (Z.of_nat 0) with 0 in Q2.
        exists p2. split; [exact B2 |]. split; [rewrite R2, R1; reflexivity |].
        remember (S (S n)) as n2 eqn:N2. cbn [text_loop]. rewrite (xbind_silent _ _ _ _ _ _ _ RD).
        assert (Q3 : xlift (a_array (Resolve n2 E contents) ops (zlen ops - 1)) (with_rd s' p) = ([], Ok (a, ok, p1))).
        { unfold xlift. f_equal. subst n2. replace (zlen ops - 1) with (zlen ops - 1 - Z.of_nat 0) by lia. exact Q1. }
        assert (Q4 : xlift (tj_strings (S (List.length a)) (Resolve n2 E contents) 0 a []) p1 = ([], Ok (even_strings a, p2))). { unfold xlift. f_equal. exact Q2. }
        change (bseq (lit "TJ") (lit "ET")) with false. change (bseq (lit "TJ") (lit "Tf")) with false.
        change (bseq (lit "TJ") (lit "Tj") || bseq (lit "TJ") (lit "'") || bseq (lit "TJ") [x22])%bool with false. rewrite bseq_is.
        destruct e; try congruence; cbv iota zeta; rewrite (xbind_silent _ _ _ _ _ _ _ Q3); cbv beta iota; rewrite (xbind_silent _ _ _ _ _ _ _ Q4);
          cbv beta iota; rewrite (xbind_ok _ _ _ _ _ _ _ _ (shown c _ t0 p2 WC D));
          unfold xbind, xout; destruct (text_loop E contents fm n2 c p2) as [w rr]; reflexivity. }
    destruct STEP as (p1 & B1 & R1 & Q1). destruct (IH r t' T' CO' n2 m p1 (Some c)) as (p' & Q2); [lia | lia | exact B1 | exact R1 | reflexivity | exact SC |].
    exists p'. cbn [after_text] in Q2 |- *. rewrite lines_cons. unfold xbind at 1. rewrite Q1. unfold xbind at 1, xout. unfold xbind in Q2.
    destruct (text_loop E contents fm n2 c p1) as [w [[u p2] | |]]; [| discriminate | discriminate].
    destruct (contents_loop E contents fm m p2) as [w' rr]. injection Q2 as Qa Qb. rewrite <- Qa, Qb, app_assoc. reflexivity.
  - inversion CO as [| ops' k' r cs' F CO']; subst. destruct cur as [c |]; [| discriminate]. destruct n as [| n]; [lia |].
    destruct (read_command_tokens _ _ _ _ T F) as (t' & e & T' & De & GO). destruct (GO contents (prd p) (proj1 B) eq_refl) as (s' & Q & W' & R').
    assert (RD : xlift (onrdr (ReadCommand contents)) p = ([], Ok ((k, ops, e), with_rd s' p))). { unfold xlift, onrdr. rewrite Q. reflexivity. }
    destruct (IH r t' T' CO' n m (with_rd s' p) (Some c)) as (p' & Q2); [lia | lia | exact (with_rd_bare _ _ _ W' B) | exact R' | exact ST | exact SC |].
    exists p'. rewrite <- Q2. cbn [after_text text_loop]. rewrite xbind_assoc, (xbind_silent _ _ _ _ _ _ _ RD).
    destruct SI as (S1 & S2 & S3 & S4). rewrite (bseq_not _ _ S4), (bseq_not _ _ S3), (bseq_not _ _ S2).
    assert (S5 : (bseq k (lit "Tj") || bseq k (lit "'") || bseq k [x22])%bool = false).
    { rewrite !bseq_not; [reflexivity | | |]; intros ->; apply S1; [right; right | right; left | left]; reflexivity. }
    rewrite S5. destruct e; try congruence; reflexivity.
Qed.
Theorem page_text_lines : forall E fm contents l cs ls, sound_fonts fm -> tokens contents l -> commands l cs -> text (named fm) even_strings None cs ls ->
  exists F, forall fuel, (F <= fuel)%nat -> page_text fuel E fm contents = (lines ls, Ok tt).
Proof.
  intros E fm contents l cs ls SF T CO TX. exists (List.length cs + 3)%nat. intros fuel L.
  destruct (text_runs E contents fm SF None cs ls TX l contents T CO fuel fuel (new_parser contents) None) as (p' & Q);
    [exact L | exact L | split; [apply open_wf | reflexivity] | reflexivity | reflexivity | discriminate |].
  unfold page_text. cbn [after_text] in Q. rewrite Q. reflexivity.
Qed.
(** every stream has such a reading *)
Lemma text_exists : forall fm, sound_fonts fm -> forall tj cs st, (forall f, st = Some f -> 1 <= snd f) -> exists ls, text (named fm) tj st cs ls.
Proof.
  intros fm SF tj. assert (DT : forall m w b, 1 <= w -> exists out, decoded m w b out).
  { intros m w b W. remember (List.length b) as n eqn:N. revert b N. induction n as [n IH] using lt_wf_ind. intros b ->.
    destruct (Z.lt_ge_cases (zlen b) w) as [L | L]; [exists []; apply de_end; exact L |].
    assert (LT : zlen (ztake w b) = w). { rewrite ztake_firstn by lia. unfold zlen in *. rewrite firstn_length. lia. }
    destruct (IH (List.length (zdrop w b))) with (b := zdrop w b) as (out & D); [pose proof (zdrop_len _ w b); unfold zlen in *; lia | reflexivity |].
    destruct (m (code (ztake w b))) as [v |] eqn:M; [exists (v ++ out) | exists (ztake w b ++ out)];
      (replace b with (ztake w b ++ zdrop w b) at 1 by (apply ztake_zdrop; lia)); [apply de_mapped | apply de_kept]; assumption. }
  induction cs as [| [k ops] cs IH]; intros st W; [exists []; apply tx_end |].
  destruct st as [f |].
  - pose proof (W f eq_refl) as Wf.
    destruct (bseq k (lit "ET")) eqn:K1; [apply bseq_eq in K1; subst k; destruct (IH None) as (ls & T); [discriminate |]; exists ls; apply tx_finish; exact T |].
    destruct (bseq k (lit "Tf")) eqn:K2.
    { apply bseq_eq in K2; subst k. destruct (IH (Some (font_named (named fm) (name_of (from_end ops 1))))) as (ls & T); [| exists ls; apply tx_font; exact T].
      intros g Qg. injection Qg as <-. unfold font_named, named. destruct (mget bseq _ fm) eqn:M; cbn; [exact (SF _ _ M) | lia]. }
    destruct (IH (Some f) W) as (ls & T).
    destruct (bseq k (lit "TJ")) eqn:K3.
    { apply bseq_eq in K3; subst k. destruct (DT (fst f) (snd f) (tj (array_of (from_end ops 0))) Wf) as (out & D). exists (out :: ls). apply tx_line; [apply ln_position; exact D | exact T]. }
    assert (SH : shows k \/ ~ shows k).
    { unfold shows. destruct (bseq k (lit "Tj")) eqn:A; [apply bseq_eq in A; auto |]. destruct (bseq k (lit "'")) eqn:B; [apply bseq_eq in B; auto |].
      destruct (bseq k [x22]) eqn:C; [apply bseq_eq in C; auto |]. right. intros [-> | [-> | ->]]; discriminate. }
    destruct SH as [SH | SH].
    + destruct (DT (fst f) (snd f) (string_of (from_end ops 0)) Wf) as (out & D). exists (out :: ls). apply tx_line; [apply ln_show; assumption | exact T].
    + exists ls. apply tx_silent; [| exact T]. split; [exact SH |]. repeat split; intros ->; discriminate.
  - destruct (bseq k (lit "BT")) eqn:K.
    + apply bseq_eq in K. subst k. destruct (IH (Some plain_font)) as (ls & T); [intros g Qg; injection Qg as <-; cbn; lia |]. exists ls. apply tx_begin. exact T.
    + destruct (IH None) as (ls & T); [discriminate |]. exists ls. apply tx_outside; [intros ->; discriminate | exact T].
Qed.
Theorem page_text_total : forall E fm contents, sound_fonts fm -> exists l cs ls, tokens contents l /\ commands l cs /\ text (named fm) even_strings None cs ls /\
  exists F, forall fuel, (F <= fuel)%nat -> page_text fuel E fm contents = (lines ls, Ok tt).
Proof.
  intros E fm contents SF. destruct (tokens_exist contents) as (l & T). destruct (commands_exist l) as (cs & CO). destruct (text_exists fm SF even_strings cs None) as (ls & TX); [discriminate |].
  exists l, cs, ls. repeat split; try assumption. exact (page_text_lines E fm contents l cs ls SF T CO TX).
Qed.
