(** ContentsP.v -- where the text in contents.txt comes from (C84). *)
From Verif Require Import Base BaseP Msg Reader ReaderP Num Lexer Obj ReadObj Env Getters Crypt GetObj Font Page Tree Output Render Extract Load Parse
  RelP ReadP GetObjP SpecRead FetchP LookP SecurityP CryptObjP TreeP LoadInvP OutP OutTopP RawP ExtractP SourceP AttachP FuelP TextP PageP CMapP
  SpecFetch SpecLook SpecTree SpecOut SpecSource SpecLex SpecLexP SpecObj SpecText SpecPage SpecPages PagesP SpecContents.
From Coq Require Import Strings.String Sorting.Permutation.
Local Open Scope x_scope.

(** ** Other parts of extraction do not write to contents.txt *)
Section Mute.
  Variables (E : env) (OD : order) (rs : Z -> M iobj) (fuel : nat).
  Definition untext (e : ev) : Prop := forall t, e <> EWrite FText t.
  Notation mute := (all_say untext).
  Ltac ut := unfold manifest_line, println; cbn [List.app]; repeat (apply Forall_cons; [intros ?; discriminate |]); apply Forall_nil.
  Lemma mute_out : forall w, Forall untext w -> mute (xout w).
  Proof. intros w H q. exact H. Qed.
  Ltac mu_ t := repeat first [t | apply all_ret | apply all_lift | apply mute_out; ut | apply all_bind; [| intros ?] |
    match goal with |- mute (let '(_, _) := ?x in _) => destruct x | |- mute (if ?b then _ else _) => destruct b
    | |- mute (match ?x with _ => _ end) => destruct x end].
  Ltac mu := mu_ fail.
  Lemma dump_untext : forall n d, Forall untext (dump_file E n d).
  Proof. intros. unfold dump_file. ut. Qed.
  Lemma file_mute : forall d c, mute (file_extract E rs d c).
  Proof. intros. unfold file_extract. mu; try (apply mute_out; apply dump_untext); destruct c; apply mute_out; ut. Qed.
  Lemma action_mute : forall d, mute (action_extract E rs d).
  Proof. intros. unfold action_extract. mu_ ltac:(apply file_mute). Qed.
  Lemma action_at_mute : forall d k, mute (action_at E rs d k).
  Proof. intros. unfold action_at. mu_ ltac:(apply action_mute). Qed.
  Lemma seq_mute : forall l, (forall m, In m l -> mute m) -> mute (xseq l).
  Proof. induction l as [| m l IH]; intros H; [apply all_ret |]. cbn [xseq]. apply all_bind; [apply H; left; reflexivity |]. intros _. apply IH. intros m' I. apply H. right. exact I. Qed.
  Lemma additional_mute : forall st d, mute (additional_actions E OD rs st d).
  Proof. intros. unfold additional_actions. mu. apply seq_mute. intros m I. apply in_map_iff in I. destruct I as (k & <- & _). apply action_at_mute. Qed.
  Lemma forms_mute : forall d, mute (forms E rs d).
  Proof. intros. unfold forms. mu; apply mute_out; apply dump_untext. Qed.
  Lemma embedded_loop_mute : forall k i l, mute (embedded_loop E rs k i l).
  Proof. induction k as [| k IH]; intros i l; cbn [embedded_loop]; mu_ ltac:(first [apply file_mute | apply IH]). Qed.
  Lemma javascript_mute : forall d, mute (javascript rs d).
  Proof. intros. unfold javascript. mu. Qed.
  Lemma uris_mute : forall d, mute (uris rs d).
  Proof. intros. unfold uris. mu. Qed.
  Lemma urls_loop_mute : forall k i l, mute (urls_loop rs k i l).
  Proof. induction k as [| k IH]; intros i l; cbn [urls_loop]; mu_ ltac:(apply IH). Qed.
End Mute.

Section Contents.
  Variables (E : env) (OD : order) (file : bytes) (fuel : nat) (p : pst).
  Hypothesis OK : order_ok OD.
  Hypothesis W : reads file p.
  Hypothesis O : offsets_ok (pxref p).
  Let rs := Resolve fuel E file.

  (** what a run that ends normally writes *)
  Definition yields {A} (P : ev -> Prop) (m : X A) : Prop := forall q w a q', kept file p q -> m q = (w, Ok (a, q')) -> Forall P w.
  Lemma yields_ret : forall P A (a : A), yields P (xret a).
  Proof. intros P A a q w b q' K H. unfold xret in H. injection H as <- _ _. constructor. Qed.
  Lemma yields_all : forall (P Q : ev -> Prop) A (m : X A), all_say Q m -> (forall e, Q e -> P e) -> yields P m.
  Proof. intros P Q A m H I q w b q' K R. specialize (H q). rewrite R in H. eapply Forall_impl; [exact I | exact H]. Qed.
  Lemma yields_bind : forall P A B (m : X A) (k : A -> X B), calm file m -> yields P m -> (forall a, yields P (k a)) -> yields P (xbind m k).
  Proof.
    intros P A B m k C H1 H2 q w b q' K H. apply RawP.xbind_ok in H. destruct H as (x & a & q1 & y & R1 & R2 & ->).
    apply Forall_app. split; [eapply H1; eassumption | eapply H2; [| exact R2]]. eapply calm_kept; eassumption.
  Qed.
  Lemma yields_about : forall P A B (m : M A) (k : A -> X B) (Q : A -> Prop), got file p m (fun r q => Q r /\ kept file p q) -> (forall a, Q a -> yields P (k a)) -> yields P (xbind (xlift m) k).
  Proof.
    intros P A B m k Q G H q w b q' K R. apply RawP.xbind_ok in R. destruct R as (x & a & q1 & y & R1 & R2 & ->). unfold xlift in R1. injection R1 as <- R1.
    destruct (G _ _ _ K R1) as [HQ K1]. exact (H a HQ _ _ _ _ K1 R2).
  Qed.
  Lemma yields_weaken : forall A (P Q : ev -> Prop) (m : X A), (forall e, P e -> Q e) -> yields P m -> yields Q m.
  Proof. intros A P Q m H Y q w a q' K R. eapply Forall_impl; [exact H | eapply Y; eassumption]. Qed.
  Lemma yields_seq : forall P l, (forall m, In m l -> calm file m /\ yields P m) -> yields P (xseq l).
  Proof.
    induction l as [| m l IH]; intros H; [apply yields_ret |]. cbn [xseq]. destruct (H m (or_introl eq_refl)) as [C S1].
    apply yields_bind; [exact C | exact S1 |]. intros _. apply IH. intros m' I. apply H. right. exact I.
  Qed.

  (** ** One content stream *)
  Definition shown (page : dict) (s : bytes) (e : ev) : Prop :=
    exists t, e = EWrite FText t /\ (t = [x0a] \/ forall fs ls, fonts_of E file p page fs -> stream_lines fs s ls -> In t ls).
  Definition fonts_match (page : dict) (fm : fontmap) : Prop := forall fs, fonts_of E file p page fs -> sound_fonts fm /\ forall n, same_opt (fs n) (named fm n).
  Lemma page_text_shown : forall page fm s, fonts_match page fm -> yields (shown page s) (xpure (page_text fuel E fm s)).
  Proof.
    intros page fm s FM q w a q' K R. apply Forall_forall. intros e J.
    assert (T : exists t, e = EWrite FText t).
    { pose proof (page_text_all E (fun e => exists t, e = EWrite FText t) (fun b => ex_intro _ b eq_refl) fuel fm s) as A.
      rewrite Forall_forall in A. apply A. unfold xpure in R. destruct (page_text fuel E fm s) as [w0 r0]. cbn [fst snd] in *. injection R as <- _. exact J. }
    destruct T as (t & ->). exists t. split; [reflexivity |]. destruct (list_eq_dec Byte.byte_eq_dec t [x0a]) as [-> | N]; [left; reflexivity | right].
    intros fs ls F SL. destruct (FM fs F) as [SF SM]. destruct (page_text_just E file fuel p fs fm s ls SF SM SL q w a q' K R) as [-> _].
    unfold lines in J. apply in_flat_map in J. destruct J as (l & I & [Q | [Q | []]]); [injection Q as <-; exact I | congruence].
  Qed.
  Definition page_shown (page : dict) (e : ev) : Prop := exists s, content_stream E file p page s /\ shown page s e.
  Lemma contents_array_shown : forall page fm a, fonts_match page fm -> entry page (lit "Contents") = Some (OArr a) ->
    forall k i, yields (page_shown page) (contents_array E rs fuel k i fm a).
  Proof.
    intros page fm a FM C. induction k as [| k IH]; intros i; cbn [contents_array]; [apply yields_ret |].
    eapply yields_about; [apply (el_stream_got E file fuel p W O) |]. intros [c ok] A.
    apply yields_bind; [destruct ok; [apply xstill_pure | apply xstill_ret] | | intros _; apply IH].
    destruct ok; [| apply yields_ret]. destruct A as [[_ R] | [Z0 _]]; [| discriminate]. cbn [fst] in R.
    eapply yields_weaken; [| apply (page_text_shown page fm (stream_bytes c) FM)]. intros e S1. exists (stream_bytes c). split; [| exact S1].
    destruct (element a i) as [x |] eqn:Q; [| destruct R as (n & g & o & Q' & _); discriminate Q'].
    eapply cn_array; [exact C | eapply element_In; exact Q | exact R].
  Qed.
  Lemma page_extract_shown : forall st page, yields (page_shown page) (page_extract E OD rs fuel st page).
  Proof.
    intros st page. unfold page_extract.
    eapply yields_about; [apply (dict_got E file fuel p W O) |]. intros [res' ok1] A1. apply answer_or in A1. cbn [fst] in A1.
    eapply yields_about; [apply (dict_got E file fuel p W O) |]. intros [fonts' ok2] A2. apply answer_or in A2. cbn [fst] in A2.
    eapply yields_about; [apply load_fonts_got; assumption |]. intros fm LF.
    assert (FM : fonts_match page fm).
    { intros fs (res & R1 & fonts & R2 & FT). assert (res' = res) by (eapply dict_at_det; eassumption). subst res'.
      assert (fonts' = fonts) by (eapply dict_at_det; eassumption). subst fonts'.
      assert (KEY : forall n, In n (o_map OD st bytes (map fst fonts)) <-> In n (map fst fonts)).
      { intros n. split; apply Permutation_in; [apply Permutation_sym |]; apply (proj1 OK). }
      split.
      - intros n f Q. destruct (LF n) as [L1 L2]. destruct (in_dec (list_eq_dec Byte.byte_eq_dec) n (o_map OD st bytes (map fst fonts))) as [J | J].
        + destruct (L1 J) as (f' & Q' & B). assert (f' = f) by congruence. subst. eapply built_sound. exact B.
        + rewrite (L2 J) in Q. discriminate.
      - intros n. destruct (LF n) as [L1 L2]. destruct (FT n) as [(J & v & Q & FA) | [J Q]]; rewrite Q; unfold named.
        + destruct (L1 (proj2 (KEY n) J)) as (f & Q' & B). rewrite Q'. cbn [option_map same_opt]. eapply built_font; eassumption.
        + rewrite L2; [exact I |]. intros J'. apply J. apply KEY. exact J'. }
    eapply yields_about; [apply (stream_got E file fuel p W O) |]. intros [c ok] A. destruct ok.
    - destruct A as [[_ R] | [Z0 _]]; [| discriminate]. cbn [fst] in R. eapply yields_weaken; [| apply (page_text_shown page fm (stream_bytes c) FM)].
      intros e S1. exists (stream_bytes c). split; [apply cn_stream; exact R | exact S1].
    - destruct A as [[Z0 _] | [_ N]]; [discriminate |]. eapply yields_about; [apply (array_got E file fuel p W O) |]. intros [a ok] A. destruct ok; [| apply yields_ret].
      apply contents_array_shown; [exact FM |]. destruct A as [[(v & V & IA) _] | [_ Z0]]; [| discriminate]. cbn [fst] in IA. unfold is_array in IA. subst v.
      revert V N. generalize (entry page (lit "Contents")). intros x V N. inversion V; subst; try reflexivity. exfalso. eapply N. reflexivity.
  Qed.

  (** ** Page trees *)
  Definition text_written (h : dict) (e : ev) : Prop := untext e \/ exists t, e = EWrite FText t /\ (t = [x0a] \/ text_of E file p h t).
  Lemma pages_loop_shown : forall h ds st i, (forall d, In d ds -> page_under E file p h d) -> yields (text_written h) (pages_loop E OD rs fuel st i ds).
  Proof.
    intros h. induction ds as [| d ds IH]; intros st i H; cbn [pages_loop]; [apply yields_ret |].
    apply yields_bind; [apply page_extract_still | | intros _; apply IH; intros d' J; apply H; right; exact J].
    eapply yields_weaken; [| apply page_extract_shown]. intros e (s & CS & t & -> & D). right. exists t. split; [reflexivity |].
    destruct D as [-> | D]; [left; reflexivity | right]. exists d, s. split; [apply H; left; reflexivity |]. split; assumption.
  Qed.
  Lemma page_text_of_shown : forall st h, yields (text_written h) (page_text_of E OD rs fuel st h).
  Proof.
    intros st h. unfold page_text_of. apply (yields_about _ _ _ _ _ (fun r => snd r = true -> forall d, In d (fst r) -> page_under E file p h d)).
    - unfold page_tree. eapply got_bind; [apply (dict_got E file fuel p W O) |]. intros [root ok] A. destruct ok.
      2: { apply got_ret. intros q K. split; [| exact K]. intros X. discriminate X. }
      assert (T : typed E file p is_dict (entry h (lit "Pages")) root) by (destruct A as [[T _] | [_ Z0]]; [exact T | discriminate]).
      intros q r q' K H. unfold bind in H. destruct (resolve_kids rs fuel root [] q) as [[[l s'] q1]| |] eqn:R; try discriminate.
      assert (KD : exists ks, array_at E file p root "Kids" ks).
      { destruct fuel as [| f'] eqn:Qf; [discriminate |]. cbn [resolve_kids] in R. unfold bind in R. destruct (d_array rs root (lit "Kids") q) as [[[kids ok] q2]| |] eqn:D; try discriminate.
        pose proof (array_got E file (S f') p W O root (lit "Kids") q) as G. destruct (G _ _ K D) as [A' _]. apply answer_or in A'. exists kids. exact A'. }
      destruct KD as (ks & KS). destruct (proj1 (walk_got E file fuel p W O fuel) root [] ks KS _ _ _ K R) as [(vs & WK & Q) K1]. cbn [fst snd] in *. subst l.
      injection H as <- <-. cbn [fst snd]. split; [| exact K1]. intros _ d [<- | J]; [apply pu_root; exact T |].
      apply in_map_iff in J. destruct J as ([n d'] & <- & J). cbn [snd]. eapply pu_below; [exact T | exact KS |]. eapply walk_reached; eassumption.
    - intros [ds ok] H. cbn [fst snd] in H. destruct ok; [| apply yields_ret]. apply pages_loop_shown. apply H. reflexivity.
  Qed.
  Lemma here_shown : forall st d, yields (text_written d) (extract_here E OD rs fuel st d).
  Proof.
    intros st d. assert (M : forall A (m : X A), all_say untext m -> yields (text_written d) m) by (intros A m H; eapply yields_all; [exact H | intros e U; left; exact U]).
    unfold extract_here.
    apply yields_bind; [apply action_at_still | apply M, action_at_mute | intros _].
    apply yields_bind; [apply action_at_still | apply M, action_at_mute | intros _].
    apply yields_bind; [apply additional_actions_still; exact OK | apply M, additional_mute | intros _].
    apply yields_bind; [apply forms_still | apply M, forms_mute | intros _].
    apply yields_bind; [apply embedded_files_still | unfold embedded_files; apply M; apply all_bind; [apply all_lift | intros l; apply embedded_loop_mute] | intros _].
    apply yields_bind; [apply javascript_still | apply M, javascript_mute | intros _].
    apply yields_bind; [apply page_text_of_still | apply page_text_of_shown | intros _].
    apply yields_bind; [apply uris_still | apply M, uris_mute | intros _].
    unfold urls_tree. apply M. apply all_bind; [apply all_lift | intros l; apply urls_loop_mute].
  Qed.
  Definition text_in (o : obj) (e : ev) : Prop := untext e \/ exists t, e = EWrite FText t /\ (t = [x0a] \/ exists h, holds o h /\ text_of E file p h t).
  Lemma text_in_up : forall o o' e, (forall h, holds o h -> holds o' h) -> text_in o e -> text_in o' e.
  Proof. intros o o' e H [U | (t & -> & [-> | (h & Hh & T)])]; [left; exact U | right; eexists; split; [reflexivity | left; reflexivity] |]. right. exists t. split; [reflexivity |]. right. exists h. auto. Qed.
  Lemma extract_shown : forall o st, yields (text_in o) (extract E OD rs fuel st o).
  Proof.
    intros o. induction o as [| | | | | l IH | d IH] using obj_nested_ind; intros st; try apply yields_ret.
    - rewrite extract_array. apply yields_seq. intros m I. apply in_extracts in I. destruct I as (st' & x & Ix & ->). split; [apply extract_still; exact OK |].
      eapply Forall_forall in IH; [| exact Ix]. eapply yields_weaken; [| apply IH]. intros e. apply text_in_up. intros h Hh. eapply hd_array; eassumption.
    - rewrite extract_dict. apply yields_bind; [apply extract_here_still; exact OK | | intros _].
      + eapply yields_weaken; [| apply here_shown]. intros e [U | (t & -> & [-> | T])]; [left; exact U | right; eexists; split; [reflexivity | left; reflexivity] |].
        right. exists t. split; [reflexivity |]. right. exists d. split; [constructor | exact T].
      + apply yields_seq. intros m I.
        apply (Permutation_in m (Permutation_sym (proj1 OK (2 :: st) _ _))) in I. apply in_extracts in I. destruct I as (st' & x & Ix & ->).
        split; [apply extract_still; exact OK |].
        pose proof Ix as Ik. apply in_map_iff in Ik. destruct Ik as ([k x'] & Q & Ik). cbn [snd] in Q. subst x'.
        eapply Forall_forall in IH; [| exact Ix]. eapply yields_weaken; [| apply IH]. intros e. apply text_in_up. intros h Hh. eapply hd_dict; eassumption.
  Qed.
  Definition text_sourced (e : ev) : Prop := untext e \/ exists t, e = EWrite FText t /\ (t = [x0a] \/ exists h, of_document E file p h /\ text_of E file p h t).
  Lemma extract_one_shown : forall n e, mget Z.eqb n (pxref p) = Some e -> yields text_sourced (extract_one E OD fuel file (n, e)).
  Proof.
    intros n e X. unfold extract_one. change XrefTypeIndirectObject with 1. destruct (x_type e =? 1) eqn:TY; [| apply yields_ret]. apply Z.eqb_eq in TY.
    apply yields_bind; [apply xstill_lift, lift_still | eapply yields_all; [apply (all_lift untext) | intros ee U; left; exact U] | intros _].
    eapply (yields_about _ _ _ _ _ (fun o => fetched E file p n o)).
    - intros q o q' K G. split; [| eapply kept_trans; [exact K | eapply GetObject_kept; [exact (proj1 K) | exact G]]].
      pose proof (kept_sym file p W _ K) as K'. assert (F : fetched E file q n o) by (exists fuel, q'; exact G).
      destruct (fetched_at E file q p n o (kept_alike _ _ _ K')) as (f0 & Hf); [| exact F |].
      + intros e' X' T'. destruct K as (_ & A & _). rewrite A in X'. exact (O n e' X' T').
      + destruct (Hf f0 (le_n _)) as (q2 & Q). exists f0, q2. exact Q.
    - intros o F. apply yields_bind; [apply object_extract_still; exact OK | | intros _].
      + unfold object_extract. destruct (ival o) as [| | | | | |d] eqn:V; try apply yields_ret. eapply yields_weaken; [| apply extract_shown].
        intros ee [U | (t & -> & [-> | (h & Hh & Te)])]; [left; exact U | right; eexists; split; [reflexivity | left; reflexivity] |].
        right. exists t. split; [reflexivity |]. right. exists h. split; [| exact Te]. exists n, o, d. split; [exists e; split; assumption |]. auto.
      + eapply yields_all; [apply (mute_out [_]); constructor; [intros t; discriminate | constructor] | intros ee U; left; exact U].
  Qed.
  Lemma extract_all_shown : NoDup (map fst (pxref p)) -> forall l, (forall kv, In kv l -> In kv (pxref p)) -> yields text_sourced (extract_all E OD fuel file l).
  Proof.
    intros N. induction l as [| [n e] l IH]; intros H; [apply yields_ret |]. cbn [extract_all].
    intros q w a q' K R. apply RawP.xbind_ok in R. destruct R as (w1 & a1 & q1 & w2 & R1 & R2 & ->).
    assert (X : mget Z.eqb n (pxref p) = Some e) by (apply (In_mget Z.eqb Zeqb_ok); [exact N | apply H; left; reflexivity]).
    apply Forall_app. split; [eapply extract_one_shown; eassumption |].
    assert (K1 : kept file p q1) by (eapply extract_one_calm; eassumption). eapply (IH (fun kv I => H kv (or_intror I))); eassumption.
  Qed.
End Contents.

Lemma text_source : forall E OD fuel S pw ops file p, order_ok OD -> s_input S = Some file ->
  parse E OD fuel S pw = (ops, Ok PNone) -> load fuel E (o_objects OD) file pw (new_parser file) = Ok (None, p) -> offsets_ok (pxref p) ->
  forall t, In (OpEv (EWrite FText t)) ops -> t = [x0a] \/ exists h, of_document E file p h /\ text_of E file p h t.
Proof.
  intros E OD fuel S pw ops file p OK I P L Of t J.
  assert (SP : sound file p) by (eapply tidy_load; [apply new_sound | exact L]). destruct SP as [W N].
  unfold parse in P. rewrite I in P. destruct (new_output S) as [[ops1 opened] ok] eqn:NO. destruct ok; [| discriminate].
  destruct (parse_body E OD fuel file pw (new_parser file)) as [w [[[e' |] q]| |]] eqn:B; try discriminate.
  destruct (body_ok _ _ _ _ _ _ _ _ _ B) as (p1 & L1 & Y & _). assert (p1 = p) by congruence. subst p1. destruct (Y eq_refl) as (u & Z).
  assert (ops = ops1 ++ map OpEv w ++ close_output opened) by congruence. subst ops.
  assert (N1 : ~ In (OpEv (EWrite FText t)) ops1).
  { intros J1. assert (J2 : In (OpEv (EWrite FText t)) (fst (fst (new_output S)))) by (rewrite NO; exact J1). destruct (new_output_ops _ _ J2) as [X | [X | (g & X)]]; discriminate. }
  assert (N2 : ~ In (OpEv (EWrite FText t)) (close_output opened)) by (intros J1; destruct (close_ops _ _ J1) as (g & X & _); discriminate).
  repeat (apply in_app_or in J; destruct J as [J | J]; try contradiction).
  apply in_map_iff in J. destruct J as (x & Q & J). injection Q as ->.
  pose proof (extract_all_shown E OD file fuel p OK W Of N (o_xref OD (pxref p)) (fun kv I => Permutation_in kv (Permutation_sym (proj2 (proj2 OK) _)) I) p w u q (kept_refl' _ _ W) Z) as F.
  rewrite Forall_forall in F. destruct (F _ J) as [U | (t' & Q & D)]; [exfalso; apply (U t); reflexivity |]. injection Q as <-. exact D.
Qed.
Lemma text_lines : forall E OD fuel S pw ops file p, order_ok OD -> s_input S = Some file ->
  parse E OD fuel S pw = (ops, Ok PNone) -> load fuel E (o_objects OD) file pw (new_parser file) = Ok (None, p) -> offsets_ok (pxref p) ->
  (forall h page s, of_document E file p h -> page_under E file p h page -> content_stream E file p page s -> exists fs ls, fonts_of E file p page fs /\ stream_lines fs s ls) ->
  forall t, In (OpEv (EWrite FText t)) ops -> t = [x0a] \/
    exists h page s fs ls, of_document E file p h /\ page_under E file p h page /\ content_stream E file p page s /\ fonts_of E file p page fs /\ stream_lines fs s ls /\ In t ls.
Proof.
  intros E OD fuel S pw ops file p OK I P L Of WF t J. destruct (text_source E OD fuel S pw ops file p OK I P L Of t J) as [Q | (h & D & page & s & PU & CS & T)]; [left; exact Q |].
  right. destruct (WF h page s D PU CS) as (fs & ls & F & SL). exists h, page, s, fs, ls. repeat (split; [assumption |]). eapply T; eassumption.
Qed.
