(** CMapListEx.v -- a character map with a list of values. *)
From Verif Require Import Base BaseP Msg Reader ReaderP Num Lexer Obj ReadObj Env Getters GetObj Font SpecLex SpecLexP SpecObj SpecRead ReadEx StreamEx XrefEx SpecFilters SpecText TextP TextEx SpecCMap CMapListP.
From Coq Require Import Strings.String.

Definition cmap3 : bytes := lit "3 beginbfrange <00><00><57> <01><02>[<58> <59>] <05><05><5a> endbfrange 1 beginbfchar<07><61>endbfchar".
Definition lines3 : list (list wline) :=
  [[WMap (MRange [x00] [x00] (lit "W")); WList [x01] [x02] [lit "X"; lit "Y"]; WMap (MRange [x05] [x05] (lit "Z"))]; [WMap (MChar [x07] (lit "a"))]].
Lemma hex0_parts : forall t ds v, hex_digits t ds 0 -> hex_pairs ds v -> v <> [] -> hex0 ("<"%byte :: t ++ [">"%byte]) v.
Proof. intros. eapply h0_intro; eassumption. Qed.
Ltac h0 t ds := apply (hex0_parts (lit t) ds); [repeat (apply hd_digit; [first [left; reflexivity | right; reflexivity] |]); apply hd_nil | repeat (apply hp_pair; [reflexivity |]); apply hp_nil | discriminate].
Lemma cmap3_text : wcmap_text cmap3 lines3.
Proof.
  apply (wc_ranges (lit "3 beginbfrange ") [] (num_of_Z 3) (lit "<00><00><57> <01><02>[<58> <59>] <05><05><5a>") (hd [] lines3) (lit " endbfrange 1 beginbfchar<07><61>endbfchar")).
  - cbn [app]. apply (cons0 (lit "3")); [int_obj | | right; delim_end]. apply (cons1 (lit "beginbfrange")); [kw_obj | | right; delim_end]. apply it_nil. gaps.
  - constructor.
  - apply (ws_more (lit "<00><00><57>") (WMap (MRange [x00] [x00] (lit "W"))) (lit " ") (lit "<01><02>[<58> <59>] <05><05><5a>")); [| gaps |].
    { apply (wl_range (lit "<00>") [x00] [] (lit "<00>") [x00] [] (lit "<57>") (lit "W")); try gaps; [h0 "00"%string [0; 0]%nat | h0 "00"%string [0; 0]%nat | h0 "57"%string [5; 7]%nat]. }
    apply (ws_more (lit "<01><02>[<58> <59>]") (WList [x01] [x02] [lit "X"; lit "Y"]) (lit " ") (lit "<05><05><5a>")); [| gaps |].
    { apply (wl_list (lit "<01>") [x01] [] (lit "<02>") [x02] [] (lit "<58> <59>") [lit "X"; lit "Y"]); try gaps; [h0 "01"%string [0; 1]%nat | h0 "02"%string [0; 2]%nat | | reflexivity].
      apply (hx_cons [] (lit "<58>") (lit "X") (lit " <59>")); [gaps | h0 "58"%string [5; 8]%nat |]. apply (hx_cons (lit " ") (lit "<59>") (lit "Y") []); [gaps | h0 "59"%string [5; 9]%nat |]. apply hx_nil. gaps. }
    apply ws_one. apply (wl_range (lit "<05>") [x05] [] (lit "<05>") [x05] [] (lit "<5a>") (lit "Z")); try gaps; [h0 "05"%string [0; 5]%nat | h0 "05"%string [0; 5]%nat | h0 "5a"%string [5; 10]%nat].
  - reflexivity.
  - apply (wc_chars (lit " endbfrange 1 beginbfchar") [OKw (lit "endbfrange")] (num_of_Z 1) (lit "<07><61>") [MChar [x07] (lit "a")] (lit "endbfchar") []).
    + cbn [app]. apply (cons1 (lit "endbfrange")); [kw_obj | | right; delim_end]. apply (cons1 (lit "1")); [int_obj | | right; delim_end]. apply (cons1 (lit "beginbfchar")); [kw_obj | apply nil0 | right; apply end0].
    + repeat constructor; discriminate.
    + apply (cs_last (lit "<07>") [x07] [] (lit "<61>") (lit "a")); try discriminate; try gaps; [hx "07"%string [0; 7]%nat | hx "61"%string [6; 1]%nat].
    + reflexivity.
    + apply (wc_end (lit "endbfchar") [OKw (lit "endbfchar")]); [| repeat constructor; discriminate]. apply (cons0 (lit "endbfchar")); [kw_obj | apply nil0 | right; apply end0].
Qed.
Lemma lines3_bounded : Forall (fun ws => Forall bounded (before ws)) lines3.
Proof. repeat constructor. Qed.
Lemma C105_ex : wcmap_text cmap3 lines3 /\ Forall (fun ws => Forall bounded (before ws)) lines3 /\ flat_map before lines3 = [MRange [x00] [x00] (lit "W"); MChar [x07] (lit "a")].
Proof. split; [exact cmap3_text |]. split; [exact lines3_bounded | reflexivity]. Qed.
Lemma none_left : forall x, mapped taken (flat_map before lines3) 2 x \/ mapped taken (flat_map before lines3) 5 x -> x = None.
Proof.
  intros x [[[_ X] | (a & m & b & Q & C & _)] | [[_ X] | (a & m & b & Q & C & _)]]; try exact X; exfalso;
    (cbn in Q; destruct a as [| a1 [| a2 a]]; cbn [app] in Q; [injection Q as <- <-; vm_compute in C; intuition congruence | injection Q as <- <- <-; vm_compute in C; intuition congruence | injection Q as <- <- Q; destruct a; discriminate Q]).
Qed.
Lemma some_due : ~ wmapped (List.concat lines3) 2 None /\ ~ wmapped (List.concat lines3) 5 None.
Proof.
  split; intros [[N _] | (a & w & b & Q & C & _ & X)].
  - cbn in N. inversion N as [| x1 l1 _ N1]; subst. inversion N1 as [| x2 l2 N2 _]; subst. apply N2. vm_compute. split; discriminate.
  - cbn in Q. destruct a as [| a1 [| a2 [| a3 [| a4 a]]]]; cbn [app] in Q.
    + injection Q as <- <-. discriminate X.
    + injection Q as <- <- <-. vm_compute in X. discriminate X.
    + injection Q as <- <- <- <-. discriminate X.
    + injection Q as <- <- <- <- <-. discriminate X.
    + injection Q as <- <- <- <- Q. destruct a; discriminate Q.
  - cbn in N. inversion N as [| x1 l1 _ N1]; subst. inversion N1 as [| x2 l2 _ N2]; subst. inversion N2 as [| x3 l3 N3 _]; subst. apply N3. vm_compute. split; discriminate.
  - cbn in Q. destruct a as [| a1 [| a2 [| a3 [| a4 a]]]]; cbn [app] in Q.
    + injection Q as <- <-. discriminate X.
    + injection Q as <- <- <-. vm_compute in C. destruct C as [_ C]. apply C. reflexivity.
    + injection Q as <- <- <- <-. discriminate X.
    + injection Q as <- <- <- <- <-. discriminate X.
    + injection Q as <- <- <- <- Q. destruct a; discriminate Q.
Qed.
Lemma lists_refuted : exists cmap ss, wcmap_text cmap ss /\ Forall (fun ws => Forall bounded (before ws)) ss /\ forall E, exists F, forall fuel, (F <= fuel)%nat ->
  exists f, cmap_font fuel E cmap = Ok f /\ ~ wmapped (List.concat ss) 2 (mget Z.eqb 2 (f_map f)) /\ ~ wmapped (List.concat ss) 5 (mget Z.eqb 5 (f_map f)).
Proof.
  exists cmap3, lines3. split; [exact cmap3_text |]. split; [exact lines3_bounded |]. intros E.
  destruct (lists_loaded E cmap3 lines3 cmap3_text lines3_bounded) as (F & H). exists F. intros fuel L. destruct (H fuel L) as (f & Q & _ & M).
  exists f. split; [exact Q |]. rewrite (none_left _ (or_introl (M 2))), (none_left _ (or_intror (M 5))). exact some_due.
Qed.
