(** RestP.v -- what is true of C76-C79 and C108. *)
From Verif Require Import Base BaseP Msg Reader ReaderP Num Lexer Obj ReadObj Env Getters Crypt GetObj Load Tree Output Parse SpecRead SpecLook SpecTree
  Md5 SpecFetch SpecOut SpecSource SpecLex SpecObj SpecText SpecPage SpecPages SpecForm SourceP AttachP PagesP PagesEx.
From Coq Require Import Strings.String.

(** ** Fonts that give the same text *)
Definition same_font (f g : (Z -> option bytes) * Z) : Prop := snd f = snd g /\ forall c, fst f c = fst g c.
Lemma decoded_same : forall m m' w, (forall c, m c = m' c) -> forall b t, decoded m w b t -> decoded m' w b t.
Proof.
  intros m m' w H b t D. induction D.
  - apply de_end; auto.
  - apply de_mapped; auto. rewrite <- H. auto.
  - apply de_kept; auto. rewrite <- H. auto.
Qed.
Lemma line_same : forall tj f g k ops t, same_font f g -> line tj f k ops t -> line tj g k ops t.
Proof.
  intros tj f g k ops t [W M] L. destruct L as [k ops t K D|ops t D]; rewrite W in D.
  - apply ln_show; auto. eapply decoded_same; eauto.
  - apply ln_position. eapply decoded_same; eauto.
Qed.
Definition same_state (f g : option ((Z -> option bytes) * Z)) : Prop :=
  match f, g with Some f, Some g => same_font f g | None, None => True | _, _ => False end.
Lemma text_same : forall fs fs' tj, (forall n, same_font (font_named fs n) (font_named fs' n)) ->
  forall f cs ls, text fs tj f cs ls -> forall g, same_state f g -> text fs' tj g cs ls.
Proof.
  intros fs fs' tj H f cs ls T.
  induction T as [f|ops cs ls T IH|k ops cs ls K T IH|f ops cs ls T IH|f ops cs ls T IH|f k ops t cs ls L T IH|f k ops cs ls Q T IH];
    intros [g|] G; cbn [same_state] in G; try contradiction; try (apply tx_end).
  - apply tx_begin. apply IH. split; auto.
  - apply tx_outside; auto.
  - apply tx_finish. apply IH. exact I.
  - apply tx_font. apply IH. apply H.
  - apply tx_line; auto. eapply line_same; eauto.
  - apply tx_silent; auto.
Qed.
Lemma stream_same : forall fs fs' s ls, (forall n, same_font (font_named fs n) (font_named fs' n)) -> stream_lines fs s ls -> stream_lines fs' s ls.
Proof.
  intros fs fs' s ls H (l & cs & A & B & C & D). exists l, cs. split; auto. split; auto. split; auto.
  eapply text_same; eauto. exact I.
Qed.

Lemma page_line : forall E file p page fs s ls, fonts_of E file p page fs -> contents_of E file p page [s] -> stream_lines fs s ls -> page_lines E file p page ls.
Proof.
  intros E file p page fs s ls F C L. exists fs, [s], [ls]. split; auto. split; auto. split; [constructor; [auto|constructor]|].
  simpl. rewrite app_nil_r. reflexivity.
Qed.

(** ** C76 *)
Lemma run_own : forall E OD fuel S pw ops file p, order_ok OD -> s_input S = Some file ->
  parse E OD fuel S pw = (ops, Ok PNone) -> load fuel E (o_objects OD) file pw (new_parser file) = Ok (None, p) -> offsets_ok (pxref p) ->
  forall h pages page res fs s ls, of_document E file p h -> pages_of E file p h pages -> In page pages -> resources E file p page res -> fonts_in E file p res fs ->
    contents_of E file p page [s] -> stream_lines fs s ls ->
    typed E file p is_dict (entry page (lit "Resources")) res \/ (forall n f, fs n = Some f -> snd f = 1 /\ forall c, fst f c = None) ->
    written_out (lines ls) ops.
Proof.
  intros E OD fuel S pw ops file p HO HS HP HL HF h pages page res fs s ls Hh Hp Hi Hr Hf Hc Hl K.
  assert (X : typed E file p is_dict (entry page (lit "Resources")) res ->
    page_lines E file p page ls).
  { intros T. apply (page_line E file p page fs s ls); auto. exists res. split; auto. left. exact T. }
  apply (parse_page E OD fuel S pw ops file p HO HS HP HL HF h pages page ls Hh Hp Hi).
  destruct K as [T|K]; [auto|]. destruct Hr as [res T|up res U T R]; [auto|].
  apply (page_line E file p page fs0 s ls); auto.
  - exists []. split; [right; auto|]. apply fonts_none. reflexivity.
  - apply (stream_same fs); auto. intros n. unfold font_named, fs0. destruct (fs n) as [f|] eqn:N; [|split; auto].
    destruct (K n f N). split; auto.
Qed.

(** ** C77 *)
Lemma run_array : forall E OD fuel S pw ops file p, order_ok OD -> s_input S = Some file ->
  parse E OD fuel S pw = (ops, Ok PNone) -> load fuel E (o_objects OD) file pw (new_parser file) = Ok (None, p) -> offsets_ok (pxref p) ->
  forall h pages page a fs ss lss, of_document E file p h -> pages_of E file p h pages -> In page pages -> fonts_of E file p page fs ->
    entry page (lit "Contents") = Some (OArr a) -> streams_in E file p a ss -> Forall2 (stream_lines fs) ss lss ->
    written_out (lines (List.concat lss)) ops.
Proof.
  intros E OD fuel S pw ops file p HO HS HP HL HF h pages page a fs ss lss Hh Hp Hi Hf Ha Hs Hl.
  apply (parse_page E OD fuel S pw ops file p HO HS HP HL HF h pages page _ Hh Hp Hi).
  exists fs, ss, lss. split; auto. split; [|auto]. eapply ct_array; eauto.
Qed.

(** ** C78 *)
Lemma run_unicode : forall E OD fuel S pw ops file p, order_ok OD -> s_input S = Some file ->
  parse E OD fuel S pw = (ops, Ok PNone) -> load fuel E (o_objects OD) file pw (new_parser file) = Ok (None, p) -> offsets_ok (pxref p) ->
  forall h fs ef name data, of_document E file p h -> attached E file p h fs -> ~ is_url E file p fs -> typed E file p is_dict (entry fs (lit "EF")) ef ->
    streamed E file p (entry ef (lit "UF")) data -> streamed E file p (entry ef (lit "F")) data -> typed_or E file p is_string (entry fs (lit "F")) zeros name ->
    exists x, hexed (e_md5 E data) x /\ In (OpEv (EWrite FFiles (x ++ lit ":" ++ name ++ [x0a]))) ops /\ In (OpEv (EDump x data)) ops.
Proof.
  intros E OD fuel S pw ops file p HO HS HP HL HF h fs ef name data Hh Ha Hu He _ Hs Hn.
  apply (run_carried E OD fuel S pw ops file p HO HS HP HL HF h fs name data Hh Ha).
  split; auto. exists ef. auto.
Qed.

(** ** C79 *)
Lemma run_form_array : forall E OD fuel S pw ops file p, order_ok OD -> s_input S = Some file ->
  parse E OD fuel S pw = (ops, Ok PNone) -> load fuel E (o_objects OD) file pw (new_parser file) = Ok (None, p) -> offsets_ok (pxref p) ->
  forall h a data, of_document E file p h -> entry h (lit "XFA") = Some (OArr a) -> joined E file p a data ->
    exists x, hexed (e_md5 E data) x /\ In (OpEv (EWrite FFiles (x ++ lit ":form.xml" ++ [x0a]))) ops /\ In (OpEv (EDump x data)) ops.
Proof.
  intros E OD fuel S pw ops file p HO HS HP HL HF h a data Hh Ha Hj.
  apply (run_forms E OD fuel S pw ops file p HO HS HP HL HF h data Hh). eapply fm_array; eauto.
Qed.

(** ** C108 *)
Lemma run_unmapped : forall E OD fuel S pw ops file p, order_ok OD -> s_input S = Some file ->
  parse E OD fuel S pw = (ops, Ok PNone) -> load fuel E (o_objects OD) file pw (new_parser file) = Ok (None, p) -> offsets_ok (pxref p) ->
  forall h pages page fs fs' s ls, of_document E file p h -> pages_of E file p h pages -> In page pages -> fonts_of E file p page fs -> contents_of E file p page [s] ->
    (forall n, readable_font (fs n) (fs' n)) -> stream_lines fs' s ls -> (forall n f c, fs n = Some f -> fst f c = None) ->
    written_out (lines ls) ops.
Proof.
  intros E OD fuel S pw ops file p HO HS HP HL HF h pages page fs fs' s ls Hh Hp Hi Hf Hc HR Hl K.
  apply (parse_page E OD fuel S pw ops file p HO HS HP HL HF h pages page _ Hh Hp Hi).
  apply (page_line E file p page fs s ls); auto. apply (stream_same fs'); auto.
  intros n. specialize (HR n). specialize (K n). unfold font_named. unfold readable_font in HR.
  destruct (fs n) as [f|], (fs' n) as [g|]; try contradiction; [|split; auto]. destruct HR as [W R].
  split; [auto|]. intros c. specialize (R c). rewrite (K f c eq_refl) in *. destruct (fst g c); [contradiction|reflexivity].
Qed.
