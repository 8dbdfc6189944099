(** FormP.v -- forms without text and harmless images (C106, C107). *)
From Verif Require Import Base BaseP Msg Reader ReaderP Num Lexer Obj ReadObj Env Getters Crypt GetObj Load Tree Output Parse SpecRead SpecLook SpecTree
  SpecFetch SpecOut SpecSource SpecLex SpecLexP SpecObj SpecText SpecPage SpecPages PagesP PageP SpecForm.
From Coq Require Import Strings.String.

Lemma painted_text : forall E file p res fs st cs ls, painted E file p (fun x => x = []) res fs st cs ls -> text fs all_strings st cs ls.
Proof.
  intros E file p res fs st cs ls H. induction H.
  - apply tx_end.
  - apply tx_begin. assumption.
  - subst ls'. apply tx_outside; [discriminate | assumption].
  - apply tx_outside; assumption.
  - apply tx_finish. assumption.
  - apply tx_font. assumption.
  - apply tx_line; assumption.
  - apply tx_silent; assumption.
Qed.
Lemma run_painted : forall E OD fuel S pw ops file p, order_ok OD -> s_input S = Some file ->
  parse E OD fuel S pw = (ops, Ok PNone) -> load fuel E (o_objects OD) file pw (new_parser file) = Ok (None, p) -> offsets_ok (pxref p) ->
  forall h pages page res fs s l cs ls, of_document E file p h -> pages_of E file p h pages -> In page pages -> dict_at E file p page (lit "Resources") res ->
    fonts_in E file p res fs -> contents_of E file p page [s] -> tokens s l -> commands l cs -> Forall alternating cs ->
    painted E file p (fun x => x = []) res fs None cs ls -> written_out (lines ls) ops.
Proof.
  intros E OD fuel S pw ops file p OK I P L Of h pages page res fs s l cs ls D PG IN RS FO CO TK CM AL PT. eapply parse_page; try eassumption.
  exists fs, [s], [ls]. split; [exists res; split; assumption |]. split; [exact CO |]. split; [| cbn; rewrite app_nil_r; reflexivity].
  constructor; [| constructor]. exists l, cs. split; [exact TK |]. split; [exact CM |]. split; [exact AL |]. eapply painted_text. exact PT.
Qed.

(** ** Images *)
Lemma items_then_ws : forall w, ws_byte w -> forall a la, items a la -> forall b lb, items b lb -> items (a ++ w :: b) (la ++ lb).
Proof.
  intros w W. fix IH 3. intros a la H b lb B. destruct H as [g G | g t o r l G OT H E1].
  - assert (G' : gap (g ++ [w])) by (apply gap_app; [exact G | apply gap_ws; [exact W | apply gap_nil]]).
    cbn [app]. destruct B as [g2 G2 | g2 t2 o2 r2 l2 G2 OT2 H2 E2].
    + apply it_nil. change (g ++ w :: g2) with (g ++ [w] ++ g2). rewrite app_assoc. apply gap_app; assumption.
    + replace (g ++ w :: g2 ++ t2 ++ r2) with (((g ++ [w]) ++ g2) ++ t2 ++ r2) by (rewrite <- !app_assoc; reflexivity).
      apply it_cons; try assumption. apply gap_app; assumption.
  - cbn [app]. rewrite <- !app_assoc. apply it_cons; [exact G | exact OT | apply IH; assumption |]. destruct E1 as [E1 | [-> | (x & r' & -> & D)]].
    + left. exact E1.
    + right. right. exists w, b. split; [reflexivity | left; exact W].
    + right. right. exists x, (r' ++ w :: b). split; [reflexivity | exact D].
Qed.
Lemma commands_of : forall l, exists cs, commands l cs /\ Forall (fun c => In (OKw (fst c)) l) cs.
Proof.
  induction l as [| o l (cs & C & F)].
  - exists []. split; [apply co_end |]; constructor.
  - destruct o; try (destruct C as [ops O | ops k r cs O C]; [exists []; split; [apply co_end; constructor; [intros ? Q; discriminate Q | exact O] | constructor] |];
      eexists; split; [rewrite app_comm_cons; apply co_cons; [constructor; [intros ? Q; discriminate Q | exact O] | exact C] |];
      inversion F as [| ? ? F1 F2]; subst; constructor; [right; exact F1 | eapply Forall_impl; [| exact F2]; intros c H; right; exact H]).
    match goal with |- context [OKw ?x :: l] => exists ((x, []) :: cs); split; [apply (co_cons [] x l cs); [constructor | exact C] |] end. constructor; [left; reflexivity |].
    eapply Forall_impl; [| exact F]. intros c H. right. exact H.
Qed.
Lemma text_join : forall fs tj c1, closed c1 -> forall c2 l1 l2, text fs tj None c1 l1 -> text fs tj None c2 l2 -> text fs tj None (c1 ++ c2) (l1 ++ l2).
Proof.
  intros fs tj c1 C. induction C as [| k ops cs N C IH | o body o' cs F C IH]; intros c2 l1 l2 T1 T2.
  - inversion T1; subst. exact T2.
  - inversion T1; subst; [exfalso; apply N; reflexivity |]. cbn [app]. apply tx_outside; [exact N |]. apply IH; assumption.
  - inversion T1 as [| ? ? ? T' | ? ? ? ? N | | | |]; subst; [| exfalso; apply N; reflexivity]. cbn [app]. apply tx_begin.
    clear T1. revert T'. generalize plain_font. revert l1. induction F as [| [k ops] body N F IHb]; intros l1 f T'; cbn [app] in *.
    + inversion T' as [| | | ? ? ? ? T3 | | ? ? ? ? ? ? LN | ? ? ? ? ? SI]; subst.
      * apply tx_finish. apply IH; assumption.
      * exfalso. inversion LN as [? ? ? SH | ]; subst. destruct SH as [SH | [SH | SH]]; discriminate SH.
      * exfalso. destruct SI as (_ & _ & _ & SI). apply SI. reflexivity.
    + cbn [fst] in N. inversion T'; subst.
      * exfalso. apply N. reflexivity.
      * apply tx_font. apply IHb. assumption.
      * cbn [app]. apply tx_line; [assumption |]. apply IHb. assumption.
      * apply tx_silent; [assumption |]. apply IHb. assumption.
Qed.
Lemma text_outside : forall fs tj cs ls c, Forall (fun c => fst c <> lit "BT") c -> text fs tj None cs ls -> text fs tj None (c ++ cs) ls.
Proof. intros fs tj cs ls c F T. induction F as [| [k ops] c N F IH]; [exact T |]. cbn [app]. apply tx_outside; [exact N | exact IH]. Qed.
Lemma word_items : forall k, obj_text k (OKw k) -> items k [OKw k].
Proof.
  intros k H. rewrite <- (app_nil_r k) at 1. apply (it_cons [] k (OKw k) [] []); [apply gap_nil | exact H | apply it_nil, gap_nil | right; left; reflexivity].
Qed.
Ltac kwd := apply word_items; apply ot_kw; [do 2 eexists; split; [reflexivity |]; split; [let c := fresh in let H := fresh in intros c H; vm_compute in H; repeat destruct H as [<- | H]; try contradiction; (let H := fresh in split; intros H; [apply is_ws_spec in H | apply is_delim_spec in H]; discriminate H) | let H := fresh in intros H; vm_compute in H; intuition discriminate] | discriminate].
Lemma nl : ws_byte x0a.
Proof. cbn; tauto. Qed.
Lemma sp : ws_byte x20.
Proof. cbn; tauto. Qed.
Lemma ended_app : forall (a b : list obj), b = [] \/ (exists x k, b = x ++ [OKw k]) -> a = [] \/ (exists x k, a = x ++ [OKw k]) -> a ++ b = [] \/ exists x k, a ++ b = x ++ [OKw k].
Proof. intros a b [-> | (x & k & ->)] A; [rewrite app_nil_r; exact A |]. right. exists (a ++ x), k. apply app_assoc. Qed.
Lemma not_tj : forall c : bytes * list obj, fst c <> lit "TJ" -> alternating c.
Proof. intros c N Q. contradiction. Qed.
Lemma shown_lines : forall fs s ls, shown harmless fs s ls -> exists l cs, items s l /\ commands l cs /\ Forall alternating cs /\ text fs all_strings None cs ls.
Proof.
  intros fs s ls H. induction H as [s l cs ls IT CM AL NB T | t l cs ls d kd w data r ls' IT CM EN CL AL NB T ID KD WB NE (k & IK & NK) H (l2 & cs2 & I2 & C2 & A2 & T2)].
  - exists l, cs. repeat split; assumption.
  - destruct (commands_of (k ++ [OKw (lit "EI")])) as (ci & CI & FI).
    assert (FI' : Forall (fun c => fst c <> lit "BT" /\ fst c <> lit "TJ") ci).
    { eapply Forall_impl; [| exact FI]. intros c H0. apply in_app_or in H0. destruct H0 as [H0 | [H0 | []]].
      - rewrite Forall_forall in NK. destruct (NK _ H0) as [N1 N2]. split; intros Q; [apply N1 | apply N2]; rewrite Q; reflexivity.
      - injection H0 as <-. split; discriminate. }
    set (li := OKw (lit "BI") :: kd ++ OKw (lit "ID") :: k ++ [OKw (lit "EI")]).
    set (cm := (lit "BI", []) :: (lit "ID", kd) :: ci).
    exists (l ++ li ++ l2), (cs ++ cm ++ cs2). split; [| split; [| split]].
    + apply items_then_ws; [apply nl | exact IT |]. apply items_then_ws; [apply nl | | exact I2]. unfold image, li.
      apply (items_then_ws x20 sp (lit "BI") [OKw (lit "BI")]); [kwd |]. apply items_then_ws; [apply nl | exact ID |].
      apply (items_then_ws w WB (lit "ID") [OKw (lit "ID")]); [kwd |]. apply items_then_ws; [apply nl | exact IK |]. kwd.
    + apply commands_app; [exact CM | exact EN |]. apply commands_app; [| | exact C2].
      * unfold li, cm. apply (co_cons [] (lit "BI")); [constructor |]. apply co_cons; [exact KD | exact CI].
      * right. exists (OKw (lit "BI") :: kd ++ OKw (lit "ID") :: k), (lit "EI"). unfold li. cbn [app]. rewrite <- app_assoc. reflexivity.
    + apply Forall_app. split; [exact AL |]. apply Forall_app. split; [| exact A2]. unfold cm. constructor; [apply not_tj; discriminate |]. constructor; [apply not_tj; discriminate |].
      eapply Forall_impl; [| exact FI']. intros c [_ N]. apply not_tj. exact N.
    + apply text_join; [exact CL | exact T |]. apply text_outside; [| exact T2]. unfold cm. constructor; [discriminate |]. constructor; [discriminate |].
      eapply Forall_impl; [| exact FI']. intros c [N _]. exact N.
Qed.
Lemma run_shown : forall E OD fuel S pw ops file p, order_ok OD -> s_input S = Some file ->
  parse E OD fuel S pw = (ops, Ok PNone) -> load fuel E (o_objects OD) file pw (new_parser file) = Ok (None, p) -> offsets_ok (pxref p) ->
  forall h pages page fs s ls, of_document E file p h -> pages_of E file p h pages -> In page pages -> fonts_of E file p page fs ->
    contents_of E file p page [s] -> shown harmless fs s ls -> written_out (lines ls) ops.
Proof.
  intros E OD fuel S pw ops file p OK I P L Of h pages page fs s ls D PG IN FO CO SH. eapply parse_page; try eassumption.
  exists fs, [s], [ls]. split; [exact FO |]. split; [exact CO |]. split; [| cbn; rewrite app_nil_r; reflexivity].
  constructor; [| constructor]. destruct (shown_lines _ _ _ SH) as (l & cs & A & B & C & D0). exists l, cs. split; [apply items_tokens; exact A |]. split; [exact B |]. split; assumption.
Qed.
